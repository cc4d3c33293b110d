(** The model of StreamTx refines the automaton of TxSpec. *)
From Verif Require Import Base BaseFacts SeqModel SeqProofs MtimeModel SendQueueModel EvictModel EvictProofs EvictProofs2
  Vp8Model ExtModel HeaderModel HeaderSpec HeaderProps NackModel TxModel TxSpec.

(** * sublists *)
Lemma sublist_refl {A} (l : list A) : sublist l l.
Proof. induction l; constructor; assumption. Qed.
Lemma sublist_nil_inv {A} (l : list A) : sublist l [] -> l = [].
Proof. intro H. inversion H; reflexivity. Qed.
Lemma sublist_trans {A} (b c : list A) : sublist b c -> forall a, sublist a b -> sublist a c.
Proof.
  induction 1 as [c|x b c H IH|x b c H IH]; intros a Ha.
  - apply sublist_nil_inv in Ha as ->. constructor.
  - inversion Ha; subst; [constructor|apply sub_keep; auto|apply sub_skip; auto].
  - apply sub_skip; auto.
Qed.
Lemma sublist_app {A} (a b c d : list A) : sublist a b -> sublist c d -> sublist (a ++ c) (b ++ d).
Proof.
  intros H K. induction H as [b|x a b H IH|x a b H IH]; cbn [app].
  - induction b as [|x b IH]; [exact K|]. apply sub_skip, IH.
  - apply sub_keep, IH.
  - apply sub_skip, IH.
Qed.
Lemma sublist_tl {A} (x : A) l m : sublist (x :: l) m -> sublist l m.
Proof. intro H. eapply sublist_trans; [exact H|]. apply sub_skip, sublist_refl. Qed.

(** * cache entries *)
Lemma eget_has {T} (e : ebuf T) p v : eget e p = Some v -> exists en, has (buf e) en /\ position en = p /\ value en = v.
Proof.
  unfold eget. destruct (is_inert e); [discriminate|]. destruct (slot_at (buf e) p) as [en|] eqn:S; [|discriminate].
  destruct (position en =? p) eqn:Q; [|discriminate]. intros [= <-]. exists en. split; [eapply slot_has; eauto|]. split; [lia|reflexivity].
Qed.
Lemma ei_set {T} (e : ebuf T) p v : EI e -> EI (eset e p v).
Proof.
  intro H. unfold eset. destruct (is_inert e) eqn:I; [exact H|].
  destruct (slot_at (buf e) p) as [en|] eqn:S; [|exact H]. destruct (position en =? p) eqn:Q; [|exact H].
  assert (position en = p) as P by lia. constructor; cbn [buf next_evict].
  - rewrite <- P. change (position en) with (position (mkEnt (position en) (EvictModel.timestamp en) v)) at 1.
    apply (wf_lset (buf e) (mkEnt (position en) (EvictModel.timestamp en) v)), (ei_wf _ H).
  - unfold is_inert in *. cbn [buf max_age]. unfold zlen. rewrite lset_length. unfold zlen in I. rewrite I. discriminate.
  - intros x Hx. apply has_lset in Hx as [[E _]|(j & _ & E)].
    + injection E as <-. cbn [position]. destruct (ei_evict _ H en (slot_has _ _ _ S)) as (s & E1 & E2). exists s. split; [exact E1|lia].
    + apply (ei_evict _ H). exists j. exact E.
Qed.
Lemma has_set {T} (e : ebuf T) p v en : has (buf (eset e p v)) en ->
  has (buf e) en \/ position en = p /\ value en = v.
Proof.
  unfold eset. destruct (is_inert e); [auto|]. destruct (slot_at (buf e) p) as [x|]; [|auto].
  destruct (position x =? p); [|auto]. cbn [buf]. intro H. apply has_lset in H as [[E _]|(j & _ & E)].
  - right. injection E as <-. auto.
  - left. exists j. exact E.
Qed.

Lemma last_set {T} (e : ebuf T) p v : last_position (eset e p v) = last_position e.
Proof.
  unfold eset. destruct (is_inert e); [auto|]. destruct (slot_at (buf e) p) as [x|]; [|auto]. destruct (position x =? p); reflexivity.
Qed.
Lemma last_push {T} (e : ebuf T) p t v l : last_position (epush e p t v) = Some l -> last_position e = Some l \/ l = p.
Proof.
  unfold epush. destruct (is_inert e); [auto|]. destruct (t <? last_timeout e); [auto|].
  match goal with |- last_position (if ?c then _ else _) = _ -> _ => destruct c; [auto|] end.
  cbn [last_position]. intros [= <-]. auto.
Qed.
Lemma last_evict {T} (e : ebuf T) now : last_position (maybe_evict e now) = last_position e.
Proof.
  unfold maybe_evict. destruct (is_inert e); [auto|]. destruct (_ <? _); [auto|]. destruct (next_evict e); [|auto].
  destruct (evict_loop _ _ _ _ _); reflexivity.
Qed.

(** * the invariant *)
(** the header of a written packet, with whatever identification extensions *)
Definition whdr (ss : Z) (w : rtpwrite) (e : extvals) : header :=
  mkH 2 false true (w_csrc_count w) (w_marker w) (w_pt w) (w_seq w mod U16) (w_time w) ss (w_csrc w) e 16.
Definition wpkt (ss : Z) (w : rtpwrite) : pkt :=
  mkPk (w_seq w) (mkT (w_time w) 1) (whdr ss w (w_ext w)) (w_pay w) (w_patch w) (w_nack w).
Definition entry_ok (a : spec) (en : entry (rpkt pkt)) : Prop :=
  exists w r rr m, In w (a_sent a) /\ w_nack w = true /\ position en = w_seq w /\
    k_seq (body (value en)) = w_seq w /\ k_pay (body (value en)) = w_pay w /\
    k_patch (body (value en)) = w_patch w /\ k_nack (body (value en)) = true /\
    k_hdr (body (value en)) = whdr (a_ssrc a) w (ev_ids (w_ext w) r rr m).
Definition qrel (ss : Z) (x : qpkt pkt * option Z) (y : rtpwrite * bool) : Prop :=
  fst x = qp (wpkt ss (fst y)) /\ (snd y = true <-> snd x <> None).
(** stamped packets come first *)
Fixpoint prefixed (l : list (rtpwrite * bool)) : Prop :=
  match l with
  | [] => True
  | (_, true) :: r => prefixed r
  | (_, false) :: r => Forall (fun x => snd x = false) r
  end.
Record R (s : tx) (tw : Z) (a : spec) : Prop := {
  r_ssrc : x_ssrc s = a_ssrc a; r_rtx : x_rtx s = a_rtx a; r_mid : x_mid s = a_mid a; r_rid : x_rid s = a_rid a;
  r_ack : x_ack s = a_acked a; r_noack : x_rtx s <> None -> x_ack s = false;
  r_queue : Forall2 (qrel (a_ssrc a)) (queue (x_q s)) (a_queue a); r_pre : prefixed (a_queue a);
  r_ei : EI (by_seq (x_cache s)); r_cache : forall en, has (buf (by_seq (x_cache s))) en -> entry_ok a en;
  r_asked : sublist (map (fun r => r_seq r mod U16) (x_resends s)) (a_asked a);
  r_next : a_next a <= x_seq_rtx s; r_pad : x_padding s = a_pad a; r_pad0 : 0 <= a_pad a;
  r_blank : exists pt sq ss r rr m, k_hdr (x_blank s) = mkH 2 false true 0 false pt sq 0 ss (rep 0 15) (ev_ids ev0 r rr m) 16 /\
              k_pay (x_blank s) = [] /\ k_patch (x_blank s) = None;
  r_twcc : tw = a_twcc a;
  r_seqs : forall w, In w (a_sent a) \/ In w (map fst (a_queue a)) -> 0 <= w_seq w < U64;
  r_last : forall l, last_position (by_seq (x_cache s)) = Some l -> 0 <= l < U64 }.

Lemma entry_ok_mono a a' en : a_ssrc a' = a_ssrc a -> (forall w, In w (a_sent a) -> In w (a_sent a')) ->
  entry_ok a en -> entry_ok a' en.
Proof. intros E H (w & r & rr & m & A & B). exists w, r, rr, m. rewrite E. split; [apply H, A|exact B]. Qed.

Lemma ev_ids_ids e a b c x y z : ev_ids (ev_ids e a b c) x y z = ev_ids e x y z. Proof. reflexivity. Qed.

(** * the pieces of a poll *)
Lemma ratio_down_eff s now s1 rt : ratio_down s now = Ok (s1, rt) ->
  exists st v, s1 = set_ratio (set_stats s st) v.
Proof.
  unfold ratio_down. destruct (st_tx (x_stats s)) as [h1|]; [|discriminate]. destruct (st_rtx (x_stats s)) as [h2|]; [|discriminate].
  destruct (x_ratio s) as [[r t] ts] eqn:XR. destruct (Z.max 0 (now - ts) <? 50000000); intros [= <- <-]; [|eauto].
  exists (x_stats s), (x_ratio s). destruct s; reflexivity.
Qed.
Lemma next_resend_eff c rs rest o : next_resend c rs = Ok (rest, o) ->
  exists pre, match o with
    | None => rest = []
    | Some q => exists r en, rs = pre ++ r :: rest /\ get_by_seq c (r_seq r) = Some en /\ k_nack (body en) = true /\ q = k_seq (body en)
    end.
Proof.
  induction rs as [|r rs IH]; cbn [next_resend].
  - intros [= <- <-]. exists []. reflexivity.
  - destruct (get_by_seq c (r_seq r)) as [p|] eqn:G.
    + destruct (k_nack (body p)) eqn:N; [|discriminate]. intros [= <- <-]. exists [], r, p. auto.
    + intro H. destruct (IH H) as (pre & K). exists (r :: pre). destruct o as [q|]; [|exact K].
      destruct K as (r' & en & -> & K). exists r', en. split; [reflexivity|exact K].
Qed.

Lemma R_same s s' tw a : R s tw a -> x_ssrc s' = x_ssrc s -> x_rtx s' = x_rtx s -> x_mid s' = x_mid s -> x_rid s' = x_rid s ->
  x_ack s' = x_ack s -> queue (x_q s') = queue (x_q s) -> by_seq (x_cache s') = by_seq (x_cache s) ->
  sublist (x_resends s') (x_resends s) -> a_next a <= x_seq_rtx s' -> x_padding s' = x_padding s -> x_blank s' = x_blank s ->
  R s' tw a.
Proof.
  intros [] F1 F2 F3 F4 F5 E1 E2 E3 E4 E5 E6. constructor; try assumption; try congruence.
  - intro H. rewrite F5. apply r_noack0. congruence.
  - rewrite E2. assumption.
  - eapply sublist_trans; [eassumption|]. clear - E3. induction E3; cbn [map]; constructor; assumption.
  - rewrite E6. assumption.
  - rewrite E2. assumption.
Qed.

Lemma sublist_suffix {A} (p : list A) x r : sublist (x :: r) (p ++ x :: r).
Proof. induction p; cbn [app]; [apply sublist_refl|apply sub_skip; assumption]. Qed.
Lemma sublist_map {A B} (f : A -> B) l m : sublist l m -> sublist (map f l) (map f m).
Proof. induction 1; cbn [map]; constructor; assumption. Qed.

Lemma poll_resend_ok ex s tw a now s1 o : R s tw a -> poll_resend ex s now = Ok (s1, o) ->
  R s1 tw a /\
  match o with
  | None => x_padding s1 = x_padding s
  | Some n => exists en, has (buf (by_seq (x_cache s1))) en /\ n_pkt n = body (value en) /\
      n_kind n = KResend (k_seq (body (value en))) /\ a_next a <= n_seq n < x_seq_rtx s1 /\
      sublist (k_seq (body (value en)) mod U16 :: map (fun r => r_seq r mod U16) (x_resends s1)) (a_asked a)
  end.
Proof.
  intros HR. unfold poll_resend.
  destruct (match x_cap s with None => Ok (s, false) | Some c => do (s1, rt) <- ratio_down s now; Ok (s1, ex c (fst rt) (snd rt)) end)
    as [[s0 over]| |] eqn:C; cbn [bind]; try discriminate.
  assert (exists st v, s0 = set_ratio (set_stats s st) v) as (st & v & ->).
  { destruct (x_cap s) as [c|].
    - destruct (ratio_down s now) as [[s' rt]| |] eqn:RD; cbn [bind] in C; try discriminate. injection C as <- _.
      eapply ratio_down_eff; eauto.
    - injection C as <- _. exists (x_stats s), (x_ratio s). destruct s; reflexivity. }
  clear C. destruct over.
  { intros [= <- <-]. split; [|reflexivity]. eapply R_same; [exact HR|..]; try reflexivity; [constructor|apply (r_next _ _ _ HR)]. }
  set (s0 := set_ratio _ _). change (x_cache s0) with (x_cache s). change (x_resends s0) with (x_resends s).
  destruct (next_resend (x_cache s) (x_resends s)) as [[rest o1]| |] eqn:NR; cbn [bind]; try discriminate.
  apply next_resend_eff in NR as (pre & K). destruct o1 as [q|].
  - destruct K as (r & en & ER & G & N & ->).
    change (x_cache (set_resends s0 rest)) with (x_cache s).
    destruct (get_by_seq (x_cache s) (k_seq (body en))) as [p|] eqn:G2; [|discriminate].
    intros [= <- <-]. unfold get_by_seq in G, G2.
    apply eget_has in G as (e1 & H1 & P1 & V1). apply eget_has in G2 as (e2 & H2 & P2 & V2).
    pose proof (r_cache _ _ _ HR _ H1) as (w & _ & _ & _ & _ & _ & Q1 & Q2 & _).
    pose proof (r_cache _ _ _ HR _ H2) as (w2 & _ & _ & _ & _ & _ & Q3 & Q4 & _). subst p en.
    split.
    + eapply R_same; [exact HR|..]; try reflexivity; cbn [x_resends set_seq_rtx set_stats set_resends x_seq_rtx].
      * rewrite ER. apply (sublist_tl r), sublist_suffix.
      * pose proof (r_next _ _ _ HR). cbn. lia.
    + exists e2. split; [exact H2|]. split; [reflexivity|]. split; [reflexivity|].
      cbn [n_seq x_seq_rtx set_seq_rtx set_stats set_resends]. change (x_seq_rtx s0) with (x_seq_rtx s).
      pose proof (r_next _ _ _ HR). split; [lia|].
      cbn [x_resends set_seq_rtx set_stats set_resends].
      eapply sublist_trans; [apply (r_asked _ _ _ HR)|]. rewrite ER.
      replace (k_seq (body (value e2)) mod U16 :: map (fun r0 => r_seq r0 mod U16) rest)
        with (map (fun r0 => r_seq r0 mod U16) (r :: rest)).
      * apply sublist_map, sublist_suffix.
      * cbn [map]. f_equal. f_equal. congruence.
  - subst rest. intros [= <- <-]. split; [|reflexivity].
    eapply R_same; [exact HR|..]; try reflexivity; [constructor|apply (r_next _ _ _ HR)].
Qed.

Lemma poll_regular_ok s tw a now s1 o : R s tw a -> poll_regular s now = (s1, o) ->
  match o with
  | None => s1 = s /\ forall w q, a_queue a <> (w, true) :: q
  | Some n => R s1 tw a /\ exists w q qr, a_queue a = (w, true) :: q /\ n = mkNext KReg (w_seq w) (wpkt (a_ssrc a) w) /\
      queue (x_q s1) = (qp (wpkt (a_ssrc a) w), Some now) :: qr /\ Forall2 (qrel (a_ssrc a)) qr q
  end.
Proof.
  intros HR. unfold poll_regular, sq_peek. pose proof (r_queue _ _ _ HR) as Q.
  destruct (queue (x_q s)) as [|[p [t|]] qr] eqn:EQ.
  - intros [= <- <-]. split; [reflexivity|]. intros w q E. rewrite E in Q. inversion Q.
  - intros [= <- <-]. destruct (a_queue a) as [|[w v] q] eqn:EA; inversion Q as [|? ? ? ? [Q1 Q2] Q3]; subst.
    cbn [fst snd] in Q1, Q2. assert (v = true) as -> by (apply Q2; discriminate). subst p.
    assert (queue (restamp (x_q s) now) = (qp (wpkt (a_ssrc a) w), Some now) :: qr) as ERS.
    { unfold restamp. rewrite EQ. reflexivity. }
    split.
    + destruct HR. constructor; try assumption.
      cbn [x_q set_stats set_q]. rewrite ERS, EA. constructor; [|exact Q3]. split; [reflexivity|]. cbn. split; [discriminate|reflexivity].
    + exists w, q, qr. split; [reflexivity|]. split; [reflexivity|]. split; [exact ERS|exact Q3].
  - intros [= <- <-]. split; [reflexivity|]. intros w q E. rewrite E in Q. inversion Q as [|? ? ? ? [_ Q2] _]; subst.
    cbn [fst snd] in Q2. destruct Q2 as [Q2 _]. specialize (Q2 eq_refl). congruence.
Qed.

Definition repad (a : spec) (pad : Z) : spec :=
  after a (a_queue a) (a_sent a) (a_asked a) (a_next a) pad (a_twcc a).
Lemma R_pad s s' tw a pad : R s tw a -> x_ssrc s' = x_ssrc s -> x_rtx s' = x_rtx s -> x_mid s' = x_mid s -> x_rid s' = x_rid s ->
  x_ack s' = x_ack s -> queue (x_q s') = queue (x_q s) -> by_seq (x_cache s') = by_seq (x_cache s) ->
  x_resends s' = x_resends s -> a_next a <= x_seq_rtx s' -> x_padding s' = pad -> 0 <= pad ->
  (exists pt sq ss r rr m, k_hdr (x_blank s') = mkH 2 false true 0 false pt sq 0 ss (rep 0 15) (ev_ids ev0 r rr m) 16 /\
              k_pay (x_blank s') = [] /\ k_patch (x_blank s') = None) ->
  R s' tw (repad a pad).
Proof.
  intros [] E0 E0' E0'' E0''' E0a E1 E2 E3 E4 E5 E6 E7. constructor; cbn [repad after a_ssrc a_rtx a_mid a_rid a_acked a_queue a_sent a_asked a_next a_pad a_twcc]; try assumption; try congruence.
  - intro H. rewrite E0a. apply r_noack0. congruence.
  - rewrite E2. intros en H. apply (entry_ok_mono a); auto.
  - rewrite E2. assumption.
Qed.
Lemma repad_self a : repad a (a_pad a) = a. Proof. destruct a; reflexivity. Qed.

Lemma get_smaller_has {K} (c : rtxcache K) m p : get_smaller c m = Ok p -> exists en, has (buf (by_seq c)) en /\ value en = p.
Proof.
  unfold get_smaller. destruct (upto (by_size c) (m / QUANT)) as [l| |]; cbn [bind]; try discriminate.
  destruct (find _ (rev l)) as [[q|]|]; try discriminate. destruct (get_by_seq c q) as [x|] eqn:G; [|discriminate].
  intros [= ->]. apply eget_has in G as (en & H & _ & V). eauto.
Qed.

Lemma poll_padding_ok s tw a s1 o : R s tw a -> poll_padding s = Ok (s1, o) ->
  exists pad, 0 <= pad <= a_pad a /\ R s1 tw (repad a pad) /\
  match o with
  | None => True
  | Some n => x_rtx s <> None /\ a_next a <= n_seq n < x_seq_rtx s1 /\
      ((exists en, has (buf (by_seq (x_cache s1))) en /\ n_pkt n = body (value en) /\ n_kind n = KResend (k_seq (body (value en))) /\
          50 < a_pad a /\ pad = Z.max 0 (a_pad a - zlen (k_pay (body (value en))))) \/
       (n_kind n = KBlank (Z.max 16 (Z.min (a_pad a) 240)) /\ n_pkt n = x_blank s1 /\ 0 < a_pad a /\
          pad = Z.max 0 (a_pad a - Z.max 16 (Z.min (a_pad a) 240))))
  end.
Proof.
  intros HR. unfold poll_padding. pose proof (r_pad _ _ _ HR) as EP. pose proof (r_pad0 _ _ _ HR) as P0. pose proof (r_next _ _ _ HR) as NX.
  destruct (padding_enabled s) eqn:PE; cbn [negb].
  2:{ intros [= <- <-]. exists 0. split; [lia|]. split; [|exact I].
      eapply R_pad; [exact HR|..]; try reflexivity; try assumption. apply (r_blank _ _ _ HR). }
  assert (x_rtx s <> None) as RN by (unfold padding_enabled in PE; destruct (x_rtx s); congruence).
  rewrite EP. destruct (a_pad a =? 0) eqn:Q0.
  { intros [= <- <-]. exists (a_pad a). rewrite repad_self. split; [lia|]. split; [exact HR|exact I]. }
  match goal with |- bind ?x _ = _ -> _ => destruct x as [sp| |] eqn:SP end; cbn [bind]; try discriminate.
  destruct sp as [p|].
  - destruct (MIN_SPURIOUS <? a_pad a) eqn:M; [|discriminate]. unfold MIN_SPURIOUS in M.
    destruct (x_mtu_warn s <? 80); [discriminate|].
    destruct (get_smaller _ _) as [rpk| |] eqn:G; try discriminate. injection SP as <-.
    apply get_smaller_has in G as (en & He & <-).
    intros [= <- <-]. exists (Z.max 0 (a_pad a - zlen (k_pay (body (value en))))).
    pose proof (zlen_nonneg (k_pay (body (value en)))). split; [lia|]. split.
    { eapply R_pad; [exact HR|..]; try reflexivity; try assumption; [cbn; lia|lia|apply (r_blank _ _ _ HR)]. }
    split; [exact RN|]. cbn [n_seq x_seq_rtx set_padding set_seq_rtx]. split; [lia|]. left. exists en.
    repeat (split; [first [exact He|reflexivity|lia]|]). reflexivity.
  - destruct (x_pt_pad s) as [pt|]; [|discriminate]. intros [= <- <-].
    exists (Z.max 0 (a_pad a - Z.max 16 (Z.min (a_pad a) 240))). split; [lia|]. split.
    { eapply R_pad; [exact HR|..]; try reflexivity; try assumption; [cbn; lia|lia|].
      destruct (r_blank _ _ _ HR) as (pt0 & sq & ss & r & rr & m & B1 & B2 & B3). rewrite B1.
      cbn [x_blank set_blank k_hdr k_pay k_patch]. exists pt, sq, ss, r, rr, m. unfold h_rtx. cbn. auto. }
    split; [exact RN|]. cbn [n_seq x_seq_rtx set_padding set_seq_rtx set_blank]. split; [lia|]. right.
    repeat (split; [first [reflexivity|lia]|]). reflexivity.
Qed.

Lemma find_param ps pt : match find (fun pr => p_pt pr =? pt) ps with
  | None => ~ known ps pt
  | Some pr => known ps pt /\ forall rpt, p_rtx pr = Some rpt -> rtx_pt ps pt rpt
  end.
Proof.
  induction ps as [|x ps IH]; cbn [find].
  - intros (pr & [] & _).
  - destruct (p_pt x =? pt) eqn:Q.
    + split; [exists x; split; [left; reflexivity|lia]|]. intros rpt E. exists [], x, ps. repeat (split; [first [reflexivity|lia|assumption]|]). intros y [].
    + destruct (find _ ps) as [pr|].
      * destruct IH as ((y & H1 & H2) & K). split; [exists y; split; [right|]; assumption|].
        intros rpt E. destruct (K rpt E) as (l & z & r & -> & B & C & D). exists (x :: l), z, r.
        repeat (split; [first [reflexivity|assumption]|]). intros y' [<-|Hy]; [lia|apply D, Hy].
      * intros (y & [<-|H] & E); [lia|]. apply IH. exists y. auto.
Qed.

Lemma stamp_common h m now tw : stamp_hdr h m now tw = h_ev h (common (ext_vals h) m now tw).
Proof.
  unfold stamp_hdr, common, has_ext, is_ast.
  destruct (existsb _ m); destruct tw; destruct (ext_vals h); reflexivity.
Qed.

Lemma ok_inj {A} (x y : A) : Ok x = Ok y -> x = y. Proof. congruence. Qed.
Lemma write_padded m e cc mk pt sq ts ss cs cap hb :
  write_header cap (mkH 2 false true cc mk pt sq ts ss cs e 16) m = Ok hb ->
  exists b0 r, hb = b0 :: r /\ write_header cap (mkH 2 true true cc mk pt sq ts ss cs e 16) m = Ok (Z.lor b0 32 :: r).
Proof.
  unfold write_header. cbn [has_padding has_extension csrc_count marker payload_type sequence_number timestamp ssrc csrc ext_vals].
  destruct (15 <? cc); [discriminate|]. destruct (127 <? pt); [discriminate|].
  destruct (upto cs cc) as [c| |]; cbn [bind]; try discriminate. destruct (cap <? 12 + cc * 4 + 4); [discriminate|].
  destruct (write_exts 1 m e (form_of m) _) as [eb| |]; cbn [bind]; try discriminate.
  match goal with |- (if ?c then _ else _) = _ -> _ => destruct c; [discriminate|] end.
  intro E. apply ok_inj in E. rewrite <- E. cbn [app]. eexists. eexists. split; [reflexivity|]. f_equal. f_equal.
  change (Z.lor (Z.lor 128 32) 16) with (Z.lor 144 32). change (Z.lor (Z.lor 128 0) 16) with 144.
  rewrite <- !Z.lor_assoc. f_equal. apply Z.lor_comm.
Qed.

Lemma h_len_irrel cap h m n : write_header cap (h_len h n) m = write_header cap h m.
Proof. reflexivity. Qed.

Lemma do_pad_cons b0 hl n r out : 16 <= r <= 240 -> do_pad ((b0 :: hl) ++ rep 0 n) (zlen (b0 :: hl)) r = Ok out ->
  exists post, out = ((Z.lor b0 32 :: hl) ++ rep 0 (r - 1) ++ [r]) ++ post.
Proof.
  intro Hr. unfold do_pad. destruct (255 <? r) eqn:Q; [lia|]. cbn [app idx]. change (idx (b0 :: hl ++ rep 0 n) 0) with (Ok b0). cbn [bind].
  match goal with |- (if ?c then _ else _) = _ -> _ => destruct c; [discriminate|] end.
  destruct (r <? 1) eqn:Q1; [lia|].
  change (b0 :: hl ++ rep 0 n) with ((b0 :: hl) ++ rep 0 n). rewrite upto_app. cbn [bind].
  destruct (from _ _) as [post| |]; cbn [bind]; try discriminate. intros [= <-]. exists post.
  rewrite (Z.mod_small r 256) by lia. rewrite <- !app_assoc. cbn [app]. unfold lset. reflexivity.
Qed.

Lemma wire_blank n p h m len b0 hl out : n_kind n = KBlank len -> 16 <= len <= 240 ->
  write_header 2000 h m = Ok (b0 :: hl) -> wire n p h m = Ok out ->
  exists r k, r = 16 * k /\ len <= r < len + 16 /\ 16 <= r <= 240 /\
    out = Some ((Z.lor b0 32 :: hl) ++ rep 0 (r - 1) ++ [r], r, zlen (b0 :: hl)).
Proof.
  intros EK HL W. unfold wire, DATAGRAM_MAX. rewrite W. cbn [bind]. destruct (negb (zlen (b0 :: hl) mod 4 =? 0)); [discriminate|].
  rewrite EK. unfold DATAGRAM_MAX, create_padding_packet. destruct (len =? 0) eqn:Q0; [lia|]. destruct (16 =? 0) eqn:Q1; [lia|].
  remember (Z.min (if len mod 16 =? 0 then len else (len / 16 + 1) * 16) MAX_BLANK) as r eqn:Er.
  assert (exists k, r = 16 * k /\ len <= r < len + 16 /\ 16 <= r <= 240) as (k & Hk & H1 & H2).
  { pose proof (Z.div_mod len 16 ltac:(lia)). pose proof (Z.mod_pos_bound len 16 ltac:(lia)). unfold MAX_BLANK in Er.
    destruct (len mod 16 =? 0) eqn:QM.
    - exists (len / 16). lia.
    - exists (len / 16 + 1). lia. }
  destruct (do_pad _ _ r) as [b| |] eqn:D; cbn [bind]; try discriminate.
  apply do_pad_cons in D as (post & ->); [|lia]. destruct (r =? 0) eqn:Q; [lia|].
  replace (zlen (b0 :: hl) + r) with (zlen ((Z.lor b0 32 :: hl) ++ rep 0 (r - 1) ++ [r])).
  2:{ rewrite !zlen_app, !zlen_cons, zlen_rep, zlen_nil by lia. lia. }
  rewrite upto_app. cbn [bind]. intros [= <-]. exists r, k. split; [exact Hk|]. split; [lia|]. split; [lia|]. reflexivity.
Qed.

(** * one poll *)
Definition pkt_of (a : spec) (w : rtpwrite) (p : pkt) : Prop :=
  k_seq p = w_seq w /\ k_pay p = w_pay w /\ k_patch p = w_patch w /\ k_nack p = true /\
  exists r rr m, k_hdr p = whdr (a_ssrc a) w (ev_ids (w_ext w) r rr m).
Lemma entry_pkt a en : entry_ok a en -> exists w, In w (a_sent a) /\ w_nack w = true /\ position en = w_seq w /\ pkt_of a w (body (value en)).
Proof.
  intros (w & r & rr & m & H1 & H2 & H3 & H4 & H5 & H6 & H7 & H8). exists w. unfold pkt_of.
  do 3 (split; [assumption|]). do 4 (split; [assumption|]). eauto.
Qed.
Lemma pkt_entry a en w : In w (a_sent a) -> w_nack w = true -> position en = w_seq w -> pkt_of a w (body (value en)) -> entry_ok a en.
Proof. intros H1 H2 H3 (H4 & H5 & H6 & H7 & r & rr & m & H8). exists w, r, rr, m. tauto. Qed.

Lemma R_store s tw a w p : R s tw a -> In w (a_sent a) -> w_nack w = true -> pkt_of a w p ->
  R (put_back s (KResend (w_seq w)) p) tw a.
Proof.
  intros [] I N P. constructor; cbn [put_back set_cache x_ssrc x_rtx x_mid x_rid x_ack x_q x_cache x_resends x_seq_rtx x_padding x_blank by_seq]; try assumption.
  - apply ei_set. assumption.
  - intros en H. apply has_set in H as [H|[H1 H2]]; [auto|]. apply (pkt_entry a en w); auto. rewrite H2. exact P.
  - intros l. rewrite last_set. apply r_last0.
Qed.
Lemma R_asked s tw a asked nx : R s tw a -> sublist (map (fun r => r_seq r mod U16) (x_resends s)) asked -> nx <= x_seq_rtx s ->
  forall tw', R s tw' (after a (a_queue a) (a_sent a) asked nx (a_pad a) tw').
Proof. intros [] E L tw'. constructor; cbn [after a_ssrc a_rtx a_mid a_rid a_acked a_queue a_sent a_asked a_next a_pad a_twcc]; try assumption; reflexivity. Qed.
Lemma R_set_sent s tw a l u p c : R s tw a -> R (set_sent s l u p c) tw a.
Proof. intros []. constructor; assumption. Qed.
Lemma R_blank s tw a p : R s tw a ->
  (exists pt sq ss r rr m, k_hdr p = mkH 2 false true 0 false pt sq 0 ss (rep 0 15) (ev_ids ev0 r rr m) 16 /\
              k_pay p = [] /\ k_patch p = None) ->
  R (set_blank s p) tw a.
Proof. intros [] H. constructor; assumption. Qed.

(** the RTX paths: a packet out of the cache *)
Definition p1_of (s : tx) (p0 : pkt) : pkt :=
  if x_ack s then p0 else k_with p0 (h_ev (k_hdr p0) (ev_ids (ext_vals (k_hdr p0)) (x_rid s) (rid_repair (ext_vals (k_hdr p0))) (Some (x_mid s)))).
Lemma p1_pkt s a w p0 : pkt_of a w p0 -> pkt_of a w (p1_of s p0).
Proof.
  intros (H1 & H2 & H3 & H4 & r & rr & m & H5). unfold p1_of. destruct (x_ack s).
  - repeat (split; [assumption|]). eauto.
  - unfold k_with. repeat (split; [assumption|]). rewrite H5. exists (x_rid s), rr, (Some (x_mid s)). reflexivity.
Qed.
Lemma pkt_pt a w p : pkt_of a w p -> payload_type (k_hdr p) = w_pt w.
Proof. intros (_ & _ & _ & _ & r & rr & m & ->). reflexivity. Qed.

Lemma wire_osn n p h m o hb out : n_kind n = KResend o -> write_header 2000 h m = Ok hb -> wire n p h m = Ok out ->
  exists body, out = Some (hb ++ be16 (o mod U16) ++ body, zlen (k_pay p) + 2, zlen hb) /\
    match k_patch p with Some ops => copy_to ops (k_pay p) | None => Ok (k_pay p) end = Ok body.
Proof.
  intros K W. unfold wire, DATAGRAM_MAX. rewrite W. cbn [bind]. destruct (negb _); [discriminate|]. rewrite K.
  match goal with |- (if ?c then _ else _) = _ -> _ => destruct c; [discriminate|] end.
  destruct (match k_patch p with Some ops => copy_to ops (k_pay p) | None => Ok (k_pay p) end) as [b| |]; cbn [bind]; try discriminate.
  intros [= <-]. exists b. split; reflexivity.
Qed.
Lemma wire_reg n p h m hb out : n_kind n = KReg -> write_header 2000 h m = Ok hb -> wire n p h m = Ok out ->
  exists body, out = Some (hb ++ body, zlen (k_pay p), zlen hb) /\
    match k_patch p with Some ops => copy_to ops (k_pay p) | None => Ok (k_pay p) end = Ok body.
Proof.
  intros K W. unfold wire, DATAGRAM_MAX. rewrite W. cbn [bind]. destruct (negb _); [discriminate|]. rewrite K.
  match goal with |- (if ?c then _ else _) = _ -> _ => destruct c; [discriminate|] end.
  destruct (match k_patch p with Some ops => copy_to ops (k_pay p) | None => Ok (k_pay p) end) as [b| |]; cbn [bind]; try discriminate.
  intros [= <-]. exists b. split; [|reflexivity]. do 3 f_equal. rewrite zlen_nil. lia.
Qed.
Lemma body_patch a w p b : pkt_of a w p ->
  match k_patch p with Some ops => copy_to ops (k_pay p) | None => Ok (k_pay p) end = Ok b -> body_of w b.
Proof.
  intros (_ & H2 & H3 & _). unfold body_of. rewrite H2, H3. destruct (w_patch w); congruence.
Qed.
Lemma wire_header n p h m out : wire n p h m = Ok out -> exists hb, write_header 2000 h m = Ok hb.
Proof. unfold wire, DATAGRAM_MAX. destruct (write_header 2000 h m) as [hb| |]; cbn [bind]; [eauto|discriminate..]. Qed.

(** the part of a poll after the choice, for a packet out of the cache *)
Definition finish (s0 s1 : tx) (n : next) (pad : bool) (now : Z) (m : extmap) (twcc : option Z) (ps : list param)
    : res (tx * option Z * option (list Z * receipt)) :=
  let p1 := p1_of s0 (n_pkt n) in
  let pt_main := payload_type (k_hdr p1) in
  match find (fun pr => p_pt pr =? pt_main) ps with
  | None =>
      let s2 := put_back s1 (n_kind n) p1 in
      match n_kind n with
      | KReg => do (q, _) <- sq_pop (x_q s2) now; Ok (set_q s2 q, twcc, None)
      | _ => Ok (s2, twcc, None)
      end
  | Some pr =>
      do (p2, h) <- prep s1 n p1 pr;
      let s2 := put_back s1 (n_kind n) p2 in
      let h1 := stamp_hdr h m now twcc in
      do w <- wire n p2 h1 m;
      match w with
      | None => Ok (s2, inc_twcc twcc, None)
      | Some (bytes, size, hlen) =>
          do s3 <- sent s2 n now pr pt_main;
          Ok (s3, inc_twcc twcc, Some (bytes, mkRc (h_len h1 hlen) (n_seq n) pad size))
      end
  end.
Lemma poll_packet_finish ex s now m twcc ps : poll_packet ex s now m twcc ps =
  bind (choose ex s now) (fun x => match snd x with None => Ok (fst x, twcc, None) | Some (n, pad) => finish s (fst x) n pad now m twcc ps end).
Proof.
  unfold poll_packet, finish, p1_of. destruct (choose ex s now) as [[s1 [[n pad]|]]| |]; reflexivity.
Qed.

Definition yout (o : option (list Z * receipt)) : txout := match o with Some (b, r) => YPacket b r | None => YNone end.
Definition ytw (tw : Z) (o : option Z) : Z := match o with Some t => t | None => tw end.

Lemma ytw_inc tw (en : bool) : ytw tw (inc_twcc (if en then Some tw else None)) = tw + b2z en.
Proof. destruct en; cbn; lia. Qed.
Lemma ytw_same tw (en : bool) : ytw tw (if en then Some tw else None) = tw.
Proof. destruct en; reflexivity. Qed.

Lemma finish_resend s0 s1 n pad now m (en : bool) ps tw a e st' tw' o :
  R s1 tw a -> x_ack s0 = x_ack s1 -> x_mid s0 = x_mid s1 -> x_rid s0 = x_rid s1 ->
  has (buf (by_seq (x_cache s1))) e -> n_pkt n = body (value e) -> n_kind n = KResend (k_seq (body (value e))) ->
  finish s0 s1 n pad now m (if en then Some tw else None) ps = Ok (st', tw', o) ->
  exists w, In w (a_sent a) /\ w_nack w = true /\ w_seq w = k_seq (body (value e)) /\ w_pay w = k_pay (body (value e)) /\
  ytw tw tw' = tw + (match o with None => 0 | Some _ => b2z en end) /\
  R st' tw a /\ x_resends st' = x_resends s1 /\ x_seq_rtx st' = x_seq_rtx s1 /\
  ( (o = None /\ ~ known ps (w_pt w)) \/
    exists rpt rs hb body, rtx_pt ps (w_pt w) rpt /\ a_rtx a = Some rs /\
      write_header 2000 (rtx_header a w m now (if en then Some (a_twcc a) else None) rpt rs (n_seq n) 16) m = Ok hb /\ body_of w body /\
      o = Some (hb ++ be16 (w_seq w mod U16) ++ body,
                mkRc (rtx_header a w m now (if en then Some (a_twcc a) else None) rpt rs (n_seq n) (zlen hb)) (n_seq n) pad (zlen (w_pay w) + 2))).
Proof.
  intros HR A1 A2 A3 He Ep Ek. unfold finish. rewrite Ep.
  destruct (entry_pkt _ _ (r_cache _ _ _ HR _ He)) as (w & W1 & W2 & W3 & W4).
  pose proof (p1_pkt s0 _ _ _ W4) as W5. rewrite (pkt_pt _ _ _ W5). pose proof W4 as (K1 & K2 & _).
  pose proof (find_param ps (w_pt w)) as FP. rewrite Ek, K1. intro F. exists w.
  do 2 (split; [assumption|]). split; [congruence|]. split; [congruence|].
  destruct (find _ ps) as [pr|].
  - destruct FP as [KN RP]. unfold prep in F. rewrite Ek in F.
    destruct (p_rtx pr) as [rpt|] eqn:PR; [|discriminate]. destruct (x_rtx s1) as [rs|] eqn:XR; [|discriminate].
    cbn [bind] in F. specialize (RP rpt eq_refl).
    assert (x_ack s1 = false) as NA by (apply (r_noack _ _ _ HR); congruence).
    destruct W4 as (_ & _ & _ & _ & r & rr & mm & W4h).
    set (h := h_rtx _ _ _ _) in F.
    assert (h = h_ev (mkH 2 false true (w_csrc_count w) (w_marker w) rpt (n_seq n mod U16) (w_time w) rs (w_csrc w) ev0 16)
                 (ev_ids (w_ext w) None (a_rid a) (Some (a_mid a)))) as Eh.
    { unfold h, p1_of. rewrite A1, NA, A2, A3, (r_mid _ _ _ HR), (r_rid _ _ _ HR). cbn [k_with k_hdr]. rewrite W4h.
      unfold whdr, h_rtx, h_ev. cbn. destruct (x_ack_rtx s1); reflexivity. }
    destruct (wire n _ _ m) as [out| |] eqn:WI; cbn [bind] in F; try discriminate.
    pose proof (wire_header _ _ _ _ _ WI) as (hb & HW).
    destruct (wire_osn n _ _ m _ hb out Ek HW WI) as (bd & -> & BD).
    unfold sent in F. rewrite Ek in F. cbn [bind] in F. injection F as <- <- <-.
    assert (stamp_hdr h m now (if en then Some tw else None) =
            rtx_header a w m now (if en then Some (a_twcc a) else None) rpt rs (n_seq n) 16) as ES.
    { rewrite stamp_common, Eh, <- (r_twcc _ _ _ HR). reflexivity. }
    rewrite ES in *. destruct W5 as (K5 & K6 & K7).
    split; [apply ytw_inc|]. split; [apply R_set_sent, R_store; auto; repeat (split; [tauto|]); apply K7|].
    split; [reflexivity|]. split; [reflexivity|]. right.
    exists rpt, rs, hb, bd. split; [exact RP|]. split; [rewrite <- (r_rtx _ _ _ HR); exact XR|]. split; [exact HW|].
    split; [eapply body_patch; [|exact BD]; repeat (split; [eassumption|]); apply K7|].
    rewrite K1, K6. unfold rtx_header at 2. reflexivity.
  - injection F as <- <- <-. rewrite ytw_same. split; [lia|]. split; [apply R_store; auto|].
    split; [reflexivity|]. split; [reflexivity|]. left. auto.
Qed.

Lemma R_popped s1 s' tw a w q qr : R s1 tw a -> a_queue a = (w, true) :: q -> Forall2 (qrel (a_ssrc a)) qr q ->
  x_ssrc s' = x_ssrc s1 -> x_rtx s' = x_rtx s1 -> x_mid s' = x_mid s1 -> x_rid s' = x_rid s1 -> x_ack s' = x_ack s1 ->
  queue (x_q s') = qr -> x_resends s' = x_resends s1 -> x_seq_rtx s' = x_seq_rtx s1 -> x_padding s' = x_padding s1 ->
  x_blank s' = x_blank s1 ->
  forall sn tw', (sn = a_sent a \/ sn = w :: a_sent a) -> EI (by_seq (x_cache s')) ->
  (forall e, has (buf (by_seq (x_cache s'))) e -> has (buf (by_seq (x_cache s1))) e \/
     sn = w :: a_sent a /\ w_nack w = true /\ position e = w_seq w /\ pkt_of a w (body (value e))) ->
  (forall l, last_position (by_seq (x_cache s')) = Some l -> last_position (by_seq (x_cache s1)) = Some l \/ l = w_seq w) ->
  R s' tw' (after a q sn (map (fun r => r_seq r mod U16) (x_resends s1)) (a_next a) (a_pad a) tw').
Proof.
  intros [] EQ F2 E1 E2 E3 E4 E5 E6 E7 E8 E9 E10 sn tw' SN HE HC HL.
  constructor; cbn [after a_ssrc a_rtx a_mid a_rid a_acked a_queue a_sent a_asked a_next a_pad a_twcc]; try congruence; try assumption.
  - intro H. rewrite E5. apply r_noack0. congruence.
  - rewrite EQ in r_pre0. exact r_pre0.
  - intros e He. assert (forall x, In x (a_sent a) -> In x sn) as IN by (intros x Hx; destruct SN as [->| ->]; [|right]; assumption).
    destruct (HC _ He) as [H|(-> & H1 & H2 & H3)].
    + apply (entry_ok_mono a); auto.
    + apply (pkt_entry _ _ w); auto. left. reflexivity.
  - rewrite E7. apply sublist_refl.
  - rewrite E10. assumption.
  - intros x [H|H]; apply r_seqs0.
    + destruct SN as [->| ->]; [auto|]. destruct H as [<-|H]; [|auto]. right. rewrite EQ. left. reflexivity.
    + right. rewrite EQ. right. assumption.
  - intros l H. destruct (HL _ H) as [K| ->]; [auto|]. apply r_seqs0. right. rewrite EQ. left. reflexivity.
Qed.

Lemma finish_regular s0 s1 n now m (en : bool) ps tw a w q qr st' tw' o :
  R s1 tw a -> x_ack s0 = x_ack s1 -> x_mid s0 = x_mid s1 -> x_rid s0 = x_rid s1 ->
  a_queue a = (w, true) :: q -> n = mkNext KReg (w_seq w) (wpkt (a_ssrc a) w) ->
  queue (x_q s1) = (qp (wpkt (a_ssrc a) w), Some now) :: qr -> Forall2 (qrel (a_ssrc a)) qr q ->
  finish s0 s1 n false now m (if en then Some tw else None) ps = Ok (st', tw', o) ->
  (o = None /\ ~ known ps (w_pt w) /\ ytw tw tw' = tw /\
     R st' tw (after a q (a_sent a) (map (fun r => r_seq r mod U16) (x_resends s1)) (a_next a) (a_pad a) tw)) \/
  (known ps (w_pt w) /\ ytw tw tw' = tw + b2z en /\
     R st' (tw + b2z en) (after a q (w :: a_sent a) (map (fun r => r_seq r mod U16) (x_resends s1)) (a_next a) (a_pad a) (tw + b2z en)) /\
   exists hb body,
      write_header 2000 (main_header a w m now (if en then Some (a_twcc a) else None) 16) m = Ok hb /\ body_of w body /\
      o = Some (hb ++ body,
                mkRc (main_header a w m now (if en then Some (a_twcc a) else None) (zlen hb)) (w_seq w) false (zlen (w_pay w)))).
Proof.
  intros HR A1 A2 A3 EQ En EX F2. unfold finish. subst n. cbn [n_pkt n_kind n_seq].
  set (p1 := p1_of s0 (wpkt (a_ssrc a) w)).
  assert (payload_type (k_hdr p1) = w_pt w) as EPT by (unfold p1, p1_of; destruct (x_ack s0); reflexivity). rewrite EPT.
  pose proof (find_param ps (w_pt w)) as FP. destruct (find _ ps) as [pr|].
  - destruct FP as [KN _]. cbn [prep n_kind bind].
    set (e := ext_vals (k_hdr p1)). set (h := h_ev (k_hdr p1) _). set (p2 := mkPk _ _ h _ _ _).
    intro F. right. destruct (wire _ p2 _ m) as [out| |] eqn:WI; cbn [bind] in F; try discriminate.
    pose proof (wire_header _ _ _ _ _ WI) as (hb & HW).
    destruct (wire_reg (mkNext KReg (w_seq w) (wpkt (a_ssrc a) w)) p2 _ m hb out eq_refl HW WI) as (bd & -> & BD).
    destruct (sent _ _ now pr (w_pt w)) as [s3| |] eqn:SE; cbn [bind] in F; try discriminate.
    injection F as <- <- <-.
    assert (k_hdr p1 = whdr (a_ssrc a) w (ev_ids (w_ext w) (if a_acked a then rid (w_ext w) else a_rid a) (rid_repair (w_ext w)) (if a_acked a then mid (w_ext w) else Some (a_mid a)))) as E1.
    { unfold p1, p1_of. rewrite A1, (r_ack _ _ _ HR), A2, A3, (r_mid _ _ _ HR), (r_rid _ _ _ HR).
      destruct (a_acked a); [|reflexivity]. cbn [wpkt k_hdr]. unfold whdr. destruct (w_ext w); reflexivity. }
    assert (stamp_hdr h m now (if en then Some tw else None) = main_header a w m now (if en then Some (a_twcc a) else None) 16) as ES.
    { rewrite stamp_common, <- (r_twcc _ _ _ HR). unfold h, e. rewrite E1. reflexivity. }
    rewrite ES in *.
    assert (k_pay p2 = w_pay w /\ k_patch p2 = w_patch w /\ k_seq p2 = w_seq w) as (P1 & P2 & P3).
    { unfold p2, p1, p1_of. destruct (x_ack s0); auto. }
    split; [exact KN|]. split; [apply ytw_inc|]. split.
    2:{ exists hb, bd. split; [exact HW|]. split.
        - unfold body_of. rewrite P1, P2 in BD. destruct (w_patch w); congruence.
        - change (k_pay p2) with (k_pay p1) in P1. rewrite P1. reflexivity. }
    unfold sent in SE. cbn [n_kind n_seq] in SE. cbn [put_back] in SE. rewrite EX in SE. cbn [set_sent set_q x_q] in SE.
    unfold sq_pop in SE. cbn [queue stotal last_emitted] in SE.
    destruct (decrease _ now _ _) as [t| |]; cbn [bind] in SE; try discriminate.
    change (k_nack (qbody (qp p2))) with (k_nack p2) in SE.
    destruct (k_nack p2) eqn:NK.
    + assert (w_nack w = true) as NW.
      { revert NK. unfold p2, p1, p1_of. cbn [k_nack]. destruct (p_rtx pr); [|discriminate]. destruct (x_ack s0); auto. }
      cbn [set_q x_cache set_sent] in SE.
      destruct (cache_sent (x_cache s1) _ now) as [c| |] eqn:CS; cbn [bind] in SE; try discriminate.
      injection SE as <-. unfold cache_sent in CS.
      match type of CS with (if ?c then _ else _) = _ => destruct c; [discriminate|] end. injection CS as <-.
      pose proof (r_ei _ _ _ HR) as HE. pose proof (ei_push (by_seq (x_cache s1)) (pseq (rp (qbody (qp p2)))) now (rp (qbody (qp p2))) HE) as HE'.
      eapply (R_popped s1 _ tw a w q qr HR EQ F2); try reflexivity; [right; reflexivity|..].
      * cbn [set_cache x_cache by_seq]. apply ei_evict_step. exact HE'.
      * cbn [set_cache x_cache by_seq]. intros x Hx. apply has_evict in Hx; [|exact HE'].
        apply has_push in Hx; [|exact HE]. destruct Hx as [Hx| ->]; [left; exact Hx|]. right.
        split; [reflexivity|]. split; [exact NW|]. split; [exact P3|].
        cbn [value rp body qbody qp]. split; [exact P3|]. split; [exact P1|]. split; [exact P2|]. split; [exact NK|].
        exists (rid e), None, (mid e). unfold p2, h. cbn [k_hdr]. unfold e. rewrite E1. reflexivity.
      * cbn [set_cache x_cache by_seq]. intros l Hl. rewrite last_evict in Hl. apply last_push in Hl as [Hl|Hl]; [left; exact Hl|right; rewrite Hl; exact P3].
    + injection SE as <-.
      eapply (R_popped s1 _ tw a w q qr HR EQ F2); try reflexivity; [right; reflexivity|apply (r_ei _ _ _ HR)|auto..].
  - intro F. left. cbn [put_back] in F. rewrite EX in F. cbn [set_q x_q] in F. unfold sq_pop in F. cbn [queue stotal] in F.
    destruct (decrease _ now _ _) as [t| |]; cbn [bind] in F; try discriminate. injection F as <- <- <-.
    split; [reflexivity|]. split; [exact FP|]. split; [apply ytw_same|].
    eapply (R_popped s1 _ tw a w q qr HR EQ F2); try reflexivity; [left; reflexivity|apply (r_ei _ _ _ HR)|auto..].
Qed.

Lemma finish_blank s0 s1 n pad now m (en : bool) ps tw a len st' tw' o :
  R s1 tw a -> x_ack s0 = x_ack s1 -> x_mid s0 = x_mid s1 -> x_rid s0 = x_rid s1 -> x_rtx s1 <> None ->
  n_kind n = KBlank len -> n_pkt n = x_blank s1 -> 16 <= len <= 240 ->
  finish s0 s1 n pad now m (if en then Some tw else None) ps = Ok (st', tw', o) ->
  R st' tw a /\ x_resends st' = x_resends s1 /\ x_seq_rtx st' = x_seq_rtx s1 /\
  ytw tw tw' = tw + (match o with None => 0 | Some _ => b2z en end) /\
  (o = None \/
    exists pt rpt rs hb r k, rtx_pt ps pt rpt /\ a_rtx a = Some rs /\ r = 16 * k /\ len <= r < len + 16 /\ 16 <= r <= 240 /\
      write_header 2000 (blank_header a m now (if en then Some (a_twcc a) else None) true rpt rs (n_seq n) 16) m = Ok hb /\
      o = Some (hb ++ rep 0 (r - 1) ++ [r],
                mkRc (blank_header a m now (if en then Some (a_twcc a) else None) false rpt rs (n_seq n) (zlen hb)) (n_seq n) pad r)).
Proof.
  intros HR A1 A2 A3 XR Ek Ep HL. unfold finish. rewrite Ep, Ek.
  destruct (r_blank _ _ _ HR) as (pt & sq & ss & r & rr & mm & B1 & B2 & B3).
  assert (x_ack s1 = false) as NA by (apply (r_noack _ _ _ HR); exact XR).
  set (p1 := p1_of s0 (x_blank s1)).
  assert (k_hdr p1 = mkH 2 false true 0 false pt sq 0 ss (rep 0 15) (ev_ids ev0 (a_rid a) rr (Some (a_mid a))) 16 /\ k_pay p1 = [] /\ k_patch p1 = None) as (P1 & P2 & P3).
  { unfold p1, p1_of. rewrite A1, NA, A2, A3, (r_mid _ _ _ HR), (r_rid _ _ _ HR). cbn [k_with k_hdr k_pay k_patch]. rewrite B1. auto. }
  pose proof (find_param ps (payload_type (k_hdr p1))) as FP. intro F. destruct (find _ ps) as [pr|].
  - destruct FP as [_ RP]. unfold prep in F. rewrite Ek in F.
    destruct (p_rtx pr) as [rpt|] eqn:PR; [|discriminate]. destruct (x_rtx s1) as [rs|] eqn:XR1; [|discriminate].
    cbn [bind] in F. specialize (RP rpt eq_refl).
    set (h := h_rtx _ _ _ _) in F.
    assert (h = h_ev (mkH 2 false true 0 false rpt (n_seq n mod U16) 0 rs (rep 0 15) ev0 16) (ev_ids ev0 None (a_rid a) (Some (a_mid a)))) as Eh.
    { unfold h. rewrite P1, (r_mid _ _ _ HR), (r_rid _ _ _ HR). unfold h_rtx, h_ev. cbn. destruct (x_ack_rtx s1); reflexivity. }
    assert (stamp_hdr h m now (if en then Some tw else None) =
            blank_header a m now (if en then Some (a_twcc a) else None) false rpt rs (n_seq n) 16) as ES.
    { rewrite stamp_common, Eh, <- (r_twcc _ _ _ HR). reflexivity. }
    rewrite ES in F. clear ES Eh. clearbody h.
    destruct (wire n _ _ m) as [out| |] eqn:WI; cbn [bind] in F; try discriminate.
    pose proof (wire_header _ _ _ _ _ WI) as (hb & HW). pose proof HW as HW'.
    unfold blank_header in HW'. apply write_padded in HW' as (b0 & hl & -> & HW2).
    destruct (wire_blank n _ _ m len b0 hl out Ek HL HW WI) as (q & k & Q1 & Q2 & Q3 & ->).
    unfold sent in F. rewrite Ek in F. cbn [bind] in F. injection F as <- <- <-.
    split; [apply R_set_sent, R_blank; [exact HR|]; rewrite P1; exists pt, sq, ss, (a_rid a), rr, (Some (a_mid a)); auto|].
    split; [reflexivity|]. split; [reflexivity|]. split; [apply ytw_inc|]. right.
    exists (payload_type (k_hdr p1)), rpt, rs, (Z.lor b0 32 :: hl), q, k. split; [exact RP|].
    split; [rewrite <- (r_rtx _ _ _ HR); exact XR1|]. split; [exact Q1|]. split; [exact Q2|]. split; [exact Q3|].
    split; [exact HW2|]. rewrite !zlen_cons. reflexivity.
  - injection F as <- <- <-.
    split; [apply R_blank; [exact HR|]; rewrite P1; exists pt, sq, ss, (a_rid a), rr, (Some (a_mid a)); auto|].
    split; [reflexivity|]. split; [reflexivity|]. rewrite ytw_same. split; [lia|]. left. reflexivity.
Qed.

Lemma choose_frame ex s now s1 o : choose ex s now = Ok (s1, o) ->
  x_ack s = x_ack s1 /\ x_mid s = x_mid s1 /\ x_rid s = x_rid s1.
Proof.
  assert (forall s s1 o, poll_resend ex s now = Ok (s1, o) -> x_ack s = x_ack s1 /\ x_mid s = x_mid s1 /\ x_rid s = x_rid s1) as P1.
  { clear. intros s s1 o. unfold poll_resend.
    destruct (match x_cap s with None => Ok (s, false) | Some c => do (s1, rt) <- ratio_down s now; Ok (s1, ex c (fst rt) (snd rt)) end)
      as [[s0 over]| |] eqn:C; cbn [bind]; try discriminate.
    assert (exists st v, s0 = set_ratio (set_stats s st) v) as (st & v & ->).
    { destruct (x_cap s) as [c|].
      - destruct (ratio_down s now) as [[s' rt]| |] eqn:RD; cbn [bind] in C; try discriminate. injection C as <- _.
        eapply ratio_down_eff; eauto.
      - injection C as <- _. exists (x_stats s), (x_ratio s). destruct s; reflexivity. }
    destruct over; [intros [= <- _]; auto|]. destruct (next_resend _ _) as [[rest [q|]]| |]; cbn [bind]; try discriminate.
    - destruct (get_by_seq _ q); [|discriminate]. intros [= <- _]. auto.
    - intros [= <- _]. auto. }
  assert (forall s s1 o, poll_regular s now = (s1, o) -> x_ack s = x_ack s1 /\ x_mid s = x_mid s1 /\ x_rid s = x_rid s1) as P2.
  { clear. intros s s1 o. unfold poll_regular. destruct (sq_peek (x_q s)); intros [= <- _]; auto. }
  assert (forall s s1 o, poll_padding s = Ok (s1, o) -> x_ack s = x_ack s1 /\ x_mid s = x_mid s1 /\ x_rid s = x_rid s1) as P3.
  { clear. intros s s1 o. unfold poll_padding. destruct (negb _); [intros [= <- _]; auto|]. destruct (x_padding s =? 0); [intros [= <- _]; auto|].
    match goal with |- bind ?x _ = _ -> _ => destruct x as [[p|]| |] end; cbn [bind]; try discriminate.
    - intros [= <- _]. auto.
    - destruct (x_pt_pad s); [|discriminate]. intros [= <- _]. auto. }
  unfold choose. destruct (poll_resend ex s now) as [[sa [n|]]| |] eqn:E1; cbn [bind]; try discriminate.
  - intros [= <- _]. eapply P1; eauto.
  - destruct (poll_regular sa now) as [sb [n|]] eqn:E2.
    + intros [= <- _]. apply P1 in E1. apply P2 in E2. intuition congruence.
    + destruct (poll_padding sb) as [[sc o3]| |] eqn:E3; cbn [bind]; try discriminate. intros [= <- _].
      apply P1 in E1. apply P2 in E2. apply P3 in E3. intuition congruence.
Qed.

Lemma poll_ok ex s tw a now m (en : bool) ps s' tw' o : R s tw a ->
  poll_packet ex s now m (if en then Some tw else None) ps = Ok (s', tw', o) ->
  exists a', spoll a now m en ps (yout o) a' /\ R s' (ytw tw tw') a'.
Proof.
  intros HR. rewrite poll_packet_finish. destruct (choose ex s now) as [[s1 on]| |] eqn:CH; cbn [bind]; try discriminate.
  destruct (choose_frame _ _ _ _ _ CH) as (A1 & A2 & A3). cbn [fst snd]. unfold choose in CH.
  pose proof (r_twcc _ _ _ HR) as ETW.
  destruct (poll_resend ex s now) as [[sa [n|]]| |] eqn:E1; cbn [bind] in CH; try discriminate.
  - injection CH as <- <-. apply (poll_resend_ok _ _ _ _ _ _ _ HR) in E1 as (RA & e & H1 & H2 & H3 & H4 & H5).
    intro F. destruct (finish_resend _ _ _ _ _ _ _ _ _ _ _ _ _ _ RA A1 A2 A3 H1 H2 H3 F) as (w & W1 & W2 & W3 & W4 & TW & RS & X1 & X2 & C).
    set (asked := map (fun r => r_seq r mod U16) (x_resends sa)) in *.
    destruct C as [[-> NK]|(rpt & rs & hb & bd & C1 & C2 & C3 & C4 & ->)].
    + exists (after a (a_queue a) (a_sent a) asked (a_next a) (a_pad a) (a_twcc a)). split.
      * apply sp_idle; [eauto|apply sublist_tl in H5; exact H5|lia|]. pose proof (r_pad0 _ _ _ HR). lia.
      * rewrite TW, Z.add_0_r, ETW. eapply R_asked; [exact RS|rewrite X1; apply sublist_refl|rewrite X2; lia].
    + exists (after a (a_queue a) (a_sent a) asked (n_seq n + 1) (a_pad a) (a_twcc a + b2z en)). split.
      * apply sp_resend; auto; [lia|]. rewrite W3. exact H5.
      * rewrite TW, ETW. eapply R_asked; [exact RS|rewrite X1; apply sublist_refl|rewrite X2; lia].
  - apply (poll_resend_ok _ _ _ _ _ _ _ HR) in E1 as (RA & _).
    destruct (poll_regular sa now) as [sb [n|]] eqn:E2.
    + injection CH as <- <-. apply (poll_regular_ok _ _ _ _ _ _ RA) in E2 as (RB & w & q & qr & Q1 & Q2 & Q3 & Q4).
      intro F. set (asked := map (fun r => r_seq r mod U16) (x_resends sb)).
      destruct (finish_regular _ _ _ _ _ _ _ _ _ _ _ _ _ _ _ RB A1 A2 A3 Q1 Q2 Q3 Q4 F)
        as [(-> & NK & TW & RS)|(KN & TW & RS & hb & bd & C1 & C2 & ->)].
      * exists (after a q (a_sent a) asked (a_next a) (a_pad a) tw). rewrite TW. split; [|exact RS].
        rewrite ETW. eapply sp_drop; [exact Q1|exact NK|apply (r_asked _ _ _ RB)].
      * exists (after a q (w :: a_sent a) asked (a_next a) (a_pad a) (tw + b2z en)). rewrite TW. split; [|exact RS].
        rewrite ETW. apply sp_main; auto. apply (r_asked _ _ _ RB).
    + apply (poll_regular_ok _ _ _ _ _ _ RA) in E2 as (-> & NQ).
      destruct (poll_padding sa) as [[sc o3]| |] eqn:E3; cbn [bind] in CH; try discriminate. injection CH as <- <-.
      pose proof (poll_padding_ok _ _ _ _ _ RA E3) as (pad & PB & RC & C).
      assert (sublist (map (fun r => r_seq r mod U16) (x_resends sc)) (a_asked a)) as SA by (apply (r_asked _ _ _ RC)).
      assert (forall w' q, a_queue a = (w', true) :: q -> exists w, In w (a_sent a) /\ ~ known ps (w_pt w)) as NI by (intros w' q E; destruct (NQ _ _ E)).
      destruct o3 as [n|].
      * destruct C as (XR & NB & C). intro F. destruct C as [(e & H1 & H2 & H3 & P50 & EP)|(H1 & H2 & P0 & EP)].
        -- destruct (finish_resend _ _ _ _ _ _ _ _ _ _ _ _ _ _ RC A1 A2 A3 H1 H2 H3 F) as (w & W1 & W2 & W3 & W4 & TW & RS & X1 & X2 & C).
           destruct C as [[-> NK]|(rpt & rs & hb & bd & C1 & C2 & C3 & C4 & ->)].
           ++ exists (after a (a_queue a) (a_sent a) (map (fun r => r_seq r mod U16) (x_resends sc)) (a_next a) pad (a_twcc a)). split.
              ** apply sp_idle; [exact NI|exact SA|lia|lia].
              ** rewrite TW, Z.add_0_r, ETW. eapply (R_asked s' tw (repad a pad)); [exact RS|rewrite X1; apply sublist_refl|rewrite X2; lia].
           ++ exists (after a (a_queue a) (a_sent a) (map (fun r => r_seq r mod U16) (x_resends sc)) (n_seq n + 1) pad (a_twcc a + b2z en)). split.
              ** rewrite EP, <- W4. apply (sp_spurious a now m en ps w rpt rs); [exact W1|exact W2|exact C1|exact C2|lia|exact SA|exact P50|exact NQ|exact C3|exact C4].
              ** rewrite TW, ETW. eapply (R_asked s' tw (repad a pad)); [exact RS|rewrite X1; apply sublist_refl|rewrite X2; lia].
        -- assert (x_rtx sc <> None) as XR' by (rewrite (r_rtx _ _ _ RC); cbn [repad after a_rtx]; rewrite <- (r_rtx _ _ _ RA); exact XR).
           destruct (finish_blank _ _ _ _ _ _ _ _ _ _ _ _ _ _ RC A1 A2 A3 XR' H1 H2 ltac:(lia) F) as (RS & X1 & X2 & TW & C).
           destruct C as [->|(pt & rpt & rs & hb & r & k & C1 & C2 & C3 & C4 & C5 & C6 & ->)].
           ++ exists (after a (a_queue a) (a_sent a) (map (fun r => r_seq r mod U16) (x_resends sc)) (a_next a) pad (a_twcc a)). split.
              ** apply sp_idle; [exact NI|exact SA|lia|lia].
              ** rewrite TW, Z.add_0_r, ETW. eapply (R_asked s' tw (repad a pad)); [exact RS|rewrite X1; apply sublist_refl|rewrite X2; lia].
           ++ exists (after a (a_queue a) (a_sent a) (map (fun r => r_seq r mod U16) (x_resends sc)) (n_seq n + 1) pad (a_twcc a + b2z en)). split.
              ** replace pad with (Z.max 0 (a_pad a - r)) by lia. apply (sp_blank a now m en ps pt rpt rs _ _ _ _ k); [exact C1|exact C2|lia|exact SA|lia|exact C3|lia|lia|exact NQ|exact C6].
              ** rewrite TW, ETW. eapply (R_asked s' tw (repad a pad)); [exact RS|rewrite X1; apply sublist_refl|rewrite X2; lia].
      * intros [= <- <- <-]. exists (after a (a_queue a) (a_sent a) (map (fun r => r_seq r mod U16) (x_resends sc)) (a_next a) pad (a_twcc a)). split.
        -- apply sp_idle; [exact NI|exact SA|lia|lia].
        -- rewrite ytw_same, ETW. rewrite ETW in RC. eapply (R_asked sc (a_twcc a) (repad a pad)); [exact RC|apply sublist_refl|].
           pose proof (r_next _ _ _ RC). exact H.
Qed.

(** * the other calls *)

Definition stamped {B} (now : Z) (x : qpkt B * option Z) : qpkt B * option Z :=
  match snd x with None => (fst x, Some now) | Some _ => x end.
Lemma stamp_rev_shape {B} now (a b : list (qpkt B * option Z)) : Forall (fun x => snd x = None) b -> Forall (fun x => snd x <> None) a ->
  forall t l' t', stamp_rev (b ++ a) t now = Ok (l', t') -> l' = map (stamped now) b ++ a.
Proof.
  intros HB HA. induction HB as [|[p o] b E HB IH]; cbn [app map].
  - destruct HA as [|[p [x|]] a E HA]; cbn [stamp_rev]; intros t l' t'; [intros [= <- <-]; reflexivity..|]. destruct (E eq_refl).
  - cbn [snd] in E. subst o. cbn [stamp_rev]. intros t l' t'. destruct (increase t now (qlen p)) as [t1| |]; cbn [bind]; try discriminate.
    destruct (stamp_rev (b ++ a) t1 now) as [[l2 t2]| |] eqn:S; cbn [bind]; try discriminate. intros [= <- <-].
    rewrite (IH _ _ _ S). reflexivity.
Qed.
Lemma prefixed_split l : prefixed l -> exists a b, l = a ++ b /\ Forall (fun x => snd x = true) a /\ Forall (fun x => snd x = false) b.
Proof.
  induction l as [|[w []] l IH]; cbn [prefixed]; intro H.
  - exists [], []. auto.
  - destruct (IH H) as (a & b & -> & A & B). exists ((w, true) :: a), b. auto.
  - exists [], ((w, false) :: l). auto.
Qed.
Lemma prefixed_push l w : prefixed l -> prefixed (l ++ [(w, false)]).
Proof.
  induction l as [|[v []] l IH]; cbn [app prefixed]; intro H; [constructor|auto|].
  apply Forall_app. auto.
Qed.
Lemma prefixed_all l : prefixed (map (fun x : rtpwrite * bool => (fst x, true)) l).
Proof. induction l; cbn [map prefixed]; auto. Qed.


Lemma timeout_queue ss (q : sendq pkt) l now q' : Forall2 (qrel ss) (queue q) l -> prefixed l -> sq_timeout q now = Ok q' ->
  Forall2 (qrel ss) (queue q') (map (fun x => (fst x, true)) l).
Proof.
  intros F P. destruct (prefixed_split _ P) as (la & lb & -> & FA & FB).
  apply Forall2_app_inv_r in F as (a & b & HA & HB & E). unfold sq_timeout. rewrite E, rev_app_distr.
  destruct (stamp_rev _ _ _) as [[l' t']| |] eqn:S; cbn [bind]; try discriminate. intros [= <-]. cbn [queue fst].
  assert (Forall (fun x => snd x = None) b) as NB.
  { clear - HB FB. induction HB as [|x y b lb [H1 H2] HB IH]; [constructor|]. inversion FB; subst. constructor; [|auto].
    destruct (snd x); [|reflexivity]. destruct H2 as [_ H2]. rewrite H2 in H3 by discriminate. discriminate. }
  assert (Forall (fun x => snd x <> None) a) as NA.
  { clear - HA FA. induction HA as [|x y a la [H1 H2] HA IH]; [constructor|]. inversion FA; subst. constructor; [|auto]. apply H2. assumption. }
  apply stamp_rev_shape in S; [|apply Forall_rev; assumption..]. subst l'.
  rewrite rev_app_distr, rev_involutive, <- map_rev, rev_involutive, map_app. apply Forall2_app.
  - clear - HA NA. induction HA as [|x y a la [H1 H2] HA IH]; cbn [map]; [constructor|]. inversion NA; subst. constructor; [|auto].
    split; [exact H1|]. cbn. tauto.
  - clear - HB. induction HB as [|x y b lb [H1 H2] HB IH]; cbn [map]; [constructor|]. constructor; [|auto].
    unfold stamped. split; destruct (snd x) eqn:SX; cbn; try assumption; try tauto; split; congruence.
Qed.

Lemma sublist_flat_some {A B C} (g : A -> list B) (f : B -> C) (h : A -> C) l : (forall x, In x l -> g x = [] \/ exists y, g x = [y] /\ f y = h x) ->
  sublist (map f (flat_map g l)) (map h l).
Proof.
  induction l as [|x l IH]; cbn [flat_map map]; intro H; [constructor|].
  specialize (IH (fun y Hy => H y (or_intror Hy))). destruct (H x (or_introl eq_refl)) as [->|(y & -> & E)]; cbn [app map].
  - apply sub_skip, IH.
  - rewrite E. apply sub_keep, IH.
Qed.
Lemma nack_seqs_mod e l : 0 <= l < U64 -> 0 <= pid e < U16 -> map (fun q => q mod U16) (nack_seqs e l) = listed e.
Proof.
  intros L P. unfold nack_seqs, listed. rewrite map_map.
  assert (forall q, 0 <= q < U16 -> extend_u16 (Some l) q mod U16 = q) as K.
  { intros q Hq. destruct (extend_spec 16 l q ltac:(unfold width; lia) L) as (_ & E & _). unfold extend_u16, U16 in *.
    change (2 ^ 16) with 65536 in E. rewrite E. apply Z.mod_small. lia. }
  transitivity (map (fun q : Z => q) (pid e :: map (fun i => (pid e + i + 1) mod U16) (filter (fun i => Z.testbit (blp e) i) (zseq 0 16)))); [|apply map_id].
  apply map_ext_in. intros q [<-|Hq]; [apply K, P|]. apply in_map_iff in Hq as (i & <- & _). apply K. apply Z.mod_pos_bound. reflexivity.
Qed.

Lemma step_ok ex al s tw a o s' tw' y : R s tw a -> op_ok o -> txstep ex al s tw o = Ok (s', tw', y) ->
  exists a', sstep a o y a' /\ R s' tw' a'.
Proof.
  intros HR OK. destruct o as [w|now au c f|now m en ps|now f|n|now|now| | | |mx ag cap|b| |ns nr q1 q2]; cbn [txstep].
  - intros [= <- <- <-]. eexists. split; [apply ss_write|].
    destruct HR. constructor; cbn [write_rtp set_q set_wall after x_ssrc x_rtx x_mid x_rid x_ack x_q x_cache x_resends x_seq_rtx x_padding x_blank
      a_ssrc a_rtx a_mid a_rid a_acked a_queue a_sent a_asked a_next a_pad a_twcc]; try assumption.
    + cbn [sq_push queue]. apply Forall2_app; [assumption|]. constructor; [|constructor]. rewrite r_ssrc0. split; [reflexivity|]. cbn. split; congruence.
    + apply prefixed_push. assumption.
    + intros x [H|H]; [auto|]. rewrite map_app, in_app_iff in H. destruct H as [H|[<-|[]]]; [auto|exact OK].
  - unfold tx_timeout. set (s1 := match x_audio s with None => _ | Some _ => _ end).
    assert (R s1 tw a) as R1 by (unfold s1; destruct (x_audio s); [exact HR|]; destruct HR; constructor; assumption).
    assert (x_q s1 = x_q s) as EQ by (unfold s1; destruct (x_audio s); reflexivity). clearbody s1.
    destruct (sq_timeout (x_q s1) now) as [q'| |] eqn:S; cbn [bind]; try discriminate. intros [= <- <- <-].
    eexists. split; [apply ss_timeout|].
    pose proof (timeout_queue _ _ _ _ _ (r_queue _ _ _ R1) (r_pre _ _ _ R1) S) as TQ.
    destruct R1. constructor; cbn [set_q after x_ssrc x_rtx x_mid x_rid x_ack x_q x_cache x_resends x_seq_rtx x_padding x_blank
      a_ssrc a_rtx a_mid a_rid a_acked a_queue a_sent a_asked a_next a_pad a_twcc]; try assumption.
    + apply prefixed_all.
    + intros x [H|H]; [auto|]. rewrite map_map in H. cbn [fst] in H. auto.
  - destruct (poll_packet ex s now m (if en then Some tw else None) ps) as [[[s1 t1] o]| |] eqn:P; cbn [bind]; try discriminate.
    intros [= <- <- <-]. destruct (poll_ok _ _ _ _ _ _ _ _ _ _ _ HR P) as (a' & S & R1).
    exists a'. split; [apply ss_poll; destruct o as [[]|]; exact S|exact R1].
  - intros [= <- <- <-]. destruct f as [r|es| | |b|]; cbn [handle_rtcp].
    + exists (mkSp (a_ssrc a) (a_rtx a) (a_mid a) (a_rid a)
          (a_acked a || match a_rtx a with None => r =? a_ssrc a | Some _ => false end)
          (a_queue a) (a_sent a) (a_asked a) (a_next a) (a_pad a) (a_twcc a)). split; [apply ss_rr|].
      pose proof (r_rtx _ _ _ HR) as ER. destruct (x_rtx s) as [q|] eqn:XR; rewrite <- ER.
      * rewrite orb_false_r. destruct (q =? r); destruct HR; constructor; assumption.
      * pose proof (r_ssrc _ _ _ HR) as ES. rewrite ES. destruct (r =? a_ssrc a).
        -- rewrite orb_true_r. destruct HR. constructor; try assumption; [reflexivity|]. cbn. congruence.
        -- rewrite orb_false_r. destruct HR. constructor; assumption.
    + set (s1 := set_stats s _). assert (R s1 tw a) as R1 by (destruct HR; constructor; assumption). clearbody s1. unfold handle_nack.
      destruct (last_cached (x_cache s1)) as [l|] eqn:LC.
      * assert (0 <= l < U64) as BL.
        { unfold last_cached, elast_position in LC. destruct (is_inert _); [discriminate|]. apply (r_last _ _ _ R1 _ LC). }
        set (new := flat_map _ (flat_map _ es)).
        exists (after a (a_queue a) (a_sent a) (a_asked a ++ map (fun r => r_seq r mod U16) new) (a_next a) (a_pad a) (a_twcc a)). split.
        -- apply ss_nack. apply sublist_app; [apply sublist_refl|].
           assert (flat_map listed es = map (fun q => q mod U16) (flat_map (fun e => nack_seqs e l) es)) as ->.
           { clear - OK BL. cbn [op_ok] in OK. induction OK as [|e es P OK IH]; [reflexivity|]. cbn [flat_map]. rewrite map_app, IH, nack_seqs_mod by assumption. reflexivity. }
           apply sublist_flat_some. intros q _. destruct (get_by_seq (x_cache s1) q); [right|left; reflexivity]. eexists. split; reflexivity.
        -- rewrite <- (r_twcc _ _ _ R1). destruct R1. constructor; cbn [set_resends after x_ssrc x_rtx x_mid x_rid x_ack x_q x_cache x_resends x_seq_rtx x_padding x_blank
      a_ssrc a_rtx a_mid a_rid a_acked a_queue a_sent a_asked a_next a_pad a_twcc]; try assumption; [|reflexivity].
           rewrite map_app. apply sublist_app; [assumption|apply sublist_refl].
      * exists (after a (a_queue a) (a_sent a) (a_asked a) (a_next a) (a_pad a) (a_twcc a)). split.
        -- apply ss_nack. rewrite <- (app_nil_r (a_asked a)) at 1. apply sublist_app; [apply sublist_refl|constructor].
        -- destruct R1; constructor; assumption.
    + exists a. split; [apply ss_fb; exact I|]. destruct HR; constructor; assumption.
    + exists a. split; [apply ss_fb; exact I|]. destruct HR; constructor; assumption.
    + exists a. split; [apply ss_fb; exact I|]. destruct HR; constructor; assumption.
    + exists a. split; [apply ss_fb; exact I|exact HR].
  - intros [= <- <- <-]. cbn [op_ok] in OK. unfold generate_padding. destruct (padding_enabled s) eqn:PE.
    + exists (after a (a_queue a) (a_sent a) (a_asked a) (a_next a) (a_pad a + n) (a_twcc a)). split.
      * apply ss_pad. left. split; [reflexivity|]. rewrite <- (r_rtx _ _ _ HR). unfold padding_enabled in PE. destruct (x_rtx s); congruence.
      * destruct HR. constructor; cbn [set_padding after x_ssrc x_rtx x_mid x_rid x_ack x_q x_cache x_resends x_seq_rtx x_padding x_blank
      a_ssrc a_rtx a_mid a_rid a_acked a_queue a_sent a_asked a_next a_pad a_twcc]; try assumption; lia.
    + exists (after a (a_queue a) (a_sent a) (a_asked a) (a_next a) (a_pad a) (a_twcc a)). split; [apply ss_pad; right; reflexivity|].
      destruct HR; constructor; assumption.
  - unfold queue_state, sq_snapshot. destruct (move_time_forward _ now) as [t| |]; cbn [bind]; try discriminate. intros [= <- <- <-].
    exists a. split; [apply ss_other; exact I|]. destruct HR; constructor; assumption.
  - unfold create_sr. destruct (current_rtp_time s now) as [t| |]; cbn [bind]; try discriminate. intros [= <- <- <-].
    exists a. split; [apply ss_other; exact I|]. destruct HR; constructor; assumption.
  - intros [= <- <- <-]. exists a. split; [apply ss_other; exact I|]. destruct HR; constructor; assumption.
  - intros [= <- <- <-]. exists a. split; [apply ss_other; exact I|]. destruct HR; constructor; assumption.
  - intros [= <- <- <-]. exists a. split; [apply ss_other; exact I|]. destruct HR; constructor; assumption.
  - intros [= <- <- <-]. eexists. split; [apply ss_cache|].
    destruct HR; constructor; cbn [set_rtx_cache set_cap set_stats set_cache rtx_new after x_ssrc x_rtx x_mid x_rid x_ack x_q x_cache x_resends x_seq_rtx x_padding x_blank
      a_ssrc a_rtx a_mid a_rid a_acked a_queue a_sent a_asked a_next a_pad a_twcc by_seq]; try assumption.
    + apply ei_new.
    + intros en H. apply has_nones in H as [].
    + intros x [[]|H]. auto.
    + intros l. cbn. discriminate.
  - intros [= <- <- <-]. exists a. split; [apply ss_other; exact I|]. destruct HR; constructor; assumption.
  - intros [= <- <- <-]. eexists. split; [apply ss_reset|].
    destruct HR; constructor; cbn [reset_buffers set_padding set_resends set_info set_q set_cache sq_clear rtx_clear after x_ssrc x_rtx x_mid x_rid x_ack x_q x_cache x_resends x_seq_rtx x_padding x_blank
      a_ssrc a_rtx a_mid a_rid a_acked a_queue a_sent a_asked a_next a_pad a_twcc by_seq queue map]; try assumption; try lia.
    + constructor.
    + apply ei_clear.
    + intros en H. apply has_nones in H as [].
    + constructor.
    + intros x [[]|[]].
    + intros l. cbn. discriminate.
  - intros [= <- <- <-]. eexists. split; [apply ss_reset_ssrc|].
    destruct HR; constructor; cbn [reset_ssrc reset_buffers set_padding set_resends set_info set_q set_cache sq_clear rtx_clear after x_ssrc x_rtx x_mid x_rid x_ack x_q x_cache x_resends x_seq_rtx x_padding x_blank
      a_ssrc a_rtx a_mid a_rid a_acked a_queue a_sent a_asked a_next a_pad a_twcc by_seq queue map]; try assumption; try lia; try reflexivity.
    + constructor.
    + apply ei_clear.
    + intros en H. apply has_nones in H as [].
    + constructor.
    + destruct r_blank0 as (pt & sq & ss & r & rr & mm & B1 & B2 & B3). unfold k_with. cbn [k_hdr k_pay k_patch]. rewrite B1.
      exists pt, sq, ns, r, rr, mm. auto.
    + intros x [[]|[]].
    + intros l. cbn. discriminate.
Qed.

Lemma R_new ss rtx m r mw al q0 qr l tw : R (tx_new ss rtx m r mw al q0 qr l) tw (spec0 ss rtx m r qr tw).
Proof.
  constructor; cbn [tx_new spec0 x_ssrc x_rtx x_mid x_rid x_ack x_q x_cache x_resends x_seq_rtx x_padding x_blank
      a_ssrc a_rtx a_mid a_rid a_acked a_queue a_sent a_asked a_next a_pad a_twcc rtx_new by_seq sq_new queue map]; try reflexivity; try lia.
  - constructor.
  - apply ei_new.
  - intros en H. apply has_nones in H as [].
  - constructor.
  - exists 255, 0, 0, None, None, None. split; reflexivity || (split; reflexivity).
  - intros x [[]|[]].
  - discriminate.
Qed.
Lemma run_ok ex al ops : forall s tw a s' tw' ys, R s tw a -> Forall op_ok ops -> txrun ex al s tw ops = Ok (s', tw', ys) ->
  exists a', srun a ops ys a' /\ R s' tw' a'.
Proof.
  induction ops as [|o ops IH]; intros s tw a s' tw' ys HR OK; cbn [txrun].
  - intros [= <- <- <-]. exists a. split; [constructor|exact HR].
  - inversion OK as [|? ? O1 O2]; subst. destruct (txstep ex al s tw o) as [[[s1 t1] y]| |] eqn:S; cbn [bind]; try discriminate.
    cbn [fst snd]. destruct (txrun ex al s1 t1 ops) as [[[s2 t2] ys2]| |] eqn:T; cbn [bind]; try discriminate. intros [= <- <- <-].
    destruct (step_ok _ _ _ _ _ _ _ _ _ HR O1 S) as (a1 & S1 & R1). destruct (IH _ _ _ _ _ _ R1 O2 T) as (a2 & S2 & R2).
    exists a2. split; [econstructor; eassumption|exact R2].
Qed.

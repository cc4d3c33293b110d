(** NACKs are answered; transport-wide numbers are consecutive. *)
From Verif Require Import Base BaseFacts SeqModel SeqProofs MtimeModel SendQueueModel EvictModel EvictSpec EvictProofs EvictProofs2 EvictProps
  Vp8Model ExtModel HeaderModel NackModel TxModel TxSpec TxProofs TxProofs2 TxProofs3.

(** * the last position *)
Lemma cache_last {K} maxc age al q0 (l : list (rpkt K * Z)) c l0 pl tl : 0 < age -> numbered_from q0 l -> in_order al l ->
  cache_all (rtx_new maxc age al) l = Ok c -> l = l0 ++ [(pl, tl)] -> last_cached c = Some (pseq pl).
Proof.
  intros HA HN HT E El. rewrite cache_all_eq in E. pose proof (ri_run maxc age al q0 HA l c E HN HT) as R.
  unfold last_cached, elast_position. rewrite (inert_no maxc age al q0 HA _ _ R).
  subst l. rewrite send_all_app in E. destruct (send_all _ l0) as [c0| |] eqn:E0; cbn [bind] in E; try discriminate.
  assert (consecutive q0 l0) as HN0.
  { intros i x u Hi. apply (HN i x u). rewrite nth_error_app1; [exact Hi|]. apply nth_error_Some. congruence. }
  assert (in_time al l0) as HT0.
  { destruct HT as [T1 T2]. split.
    - intros i x u Hi. apply (T1 i x u). rewrite nth_error_app1; [exact Hi|]. apply nth_error_Some. congruence.
    - intros i j x u y w Hi Hj. apply (T2 i j x u y w);
          (rewrite nth_error_app1; [assumption|apply nth_error_Some; congruence]). }
  pose proof (ri_run maxc age al q0 HA l0 c0 E0 HN0 HT0) as R0. pose proof (inert_no maxc age al q0 HA _ _ R0) as I0.
  pose proof (last_le maxc age al q0 _ _ _ _ R0 HT) as LT.
  assert (pseq pl = q0 + zlen l0) as PL.
  { apply (HN (length l0) pl tl). rewrite nth_error_app2 by lia. rewrite Nat.sub_diag. reflexivity. }
  cbn [send_all] in E. unfold cache_sent in E. destruct (SLOTS <=? plen pl / QUANT); cbn [bind] in E; [discriminate|].
  apply ok_inj in E. rewrite <- E. cbn [by_seq]. rewrite last_evict.
  destruct (epush_cases (by_seq c0) (pseq pl) tl pl) as [[_ C]|(_ & _ & s & Hs & Hn & ->)]; [|reflexivity].
  exfalso. destruct C as [C|[C|(s & C & C')]]; [congruence|lia|].
  destruct (ri_ne _ _ _ _ _ _ R0) as [[_ C2]|(s2 & C2 & C3)]; [congruence|]. assert (s = s2) by congruence. lia.
Qed.

(** * queued resends are sent first come, first served *)
Lemma next_resend_first {c pre r post p rest o} : get_by_seq c (r_seq r) = Some p ->
  next_resend c (pre ++ r :: post) = Ok (rest, o) ->
  exists r' p', o = Some (k_seq (body p')) /\ get_by_seq c (r_seq r') = Some p' /\
    (r' = r \/ exists pre', (length pre' < length pre)%nat /\ rest = pre' ++ r :: post).
Proof.
  intro G. induction pre as [|x pre IH]; cbn [app next_resend].
  - rewrite G. destruct (k_nack (body p)); [|discriminate]. intros [= <- <-]. exists r, p. auto.
  - destruct (get_by_seq c (r_seq x)) as [px|] eqn:GX.
    + destruct (k_nack (body px)); [|discriminate]. intros [= <- <-]. exists x, px. split; [reflexivity|]. split; [exact GX|].
      right. exists pre. split; [cbn; lia|reflexivity].
    + intro H. destruct (IH H) as (r' & p' & E1 & E2 & [E3|(pre' & E3 & E4)]); exists r', p'; (split; [exact E1|split; [exact E2|]]); [left; exact E3|].
      right. exists pre'. split; [cbn; lia|exact E4].
Qed.

Section N.
Variable ex : Z -> Z -> Z -> bool.
Hypothesis EX : forall c a b, ex c a b = false.

Lemma poll_resend_first {s tw a now s1 o pre r post p} : R s tw a -> x_resends s = pre ++ r :: post -> get_by_seq (x_cache s) (r_seq r) = Some p ->
  poll_resend ex s now = Ok (s1, o) ->
  exists n, o = Some n /\
   ((exists e, n_kind n = KResend (r_seq r) /\ n_pkt n = body (value e) /\ has (buf (by_seq (x_cache s1))) e /\ k_seq (body (value e)) = r_seq r) \/
    exists pre', (length pre' < length pre)%nat /\ x_resends s1 = pre' ++ r :: post).
Proof.
  intros HR ER G. unfold poll_resend.
  destruct (match x_cap s with None => Ok (s, false) | Some c => do (s1, rt) <- ratio_down s now; Ok (s1, ex c (fst rt) (snd rt)) end)
    as [[s0 over]| |] eqn:C; cbn [bind]; try discriminate.
  assert (over = false /\ exists st v, s0 = set_ratio (set_stats s st) v) as (-> & st & v & ->).
  { destruct (x_cap s) as [c|].
    - destruct (ratio_down s now) as [[s' rt]| |] eqn:RD; cbn [bind] in C; try discriminate. injection C as <- <-.
      split; [apply EX|]. eapply ratio_down_eff; eauto.
    - injection C as <- <-. split; [reflexivity|]. exists (x_stats s), (x_ratio s). destruct s; reflexivity. }
  clear C. set (s0 := set_ratio _ _). change (x_cache s0) with (x_cache s). change (x_resends s0) with (x_resends s). rewrite ER.
  destruct (next_resend (x_cache s) (pre ++ r :: post)) as [[rest o1]| |] eqn:NR; cbn [bind]; try discriminate.
  destruct (next_resend_first G NR) as (r' & p' & -> & G' & CS).
  change (x_cache (set_resends s0 rest)) with (x_cache s).
  destruct (get_by_seq (x_cache s) (k_seq (body p'))) as [p2|] eqn:G2; [|discriminate].
  intros [= <- <-]. eexists. split; [reflexivity|].
  unfold get_by_seq in G', G2. apply eget_has in G' as (e1 & H1 & P1 & V1). apply eget_has in G2 as (e2 & H2 & P2 & V2).
  pose proof (r_cache _ _ _ HR _ H1) as (w & _ & _ & _ & _ & _ & Q1 & Q2 & _).
  pose proof (r_cache _ _ _ HR _ H2) as (w2 & _ & _ & _ & _ & _ & Q3 & Q4 & _). subst p' p2.
  destruct CS as [-> |(pre' & L & ->)].
  - left. exists e2. cbn [n_kind n_pkt]. assert (k_seq (body (value e2)) = r_seq r) as E by congruence. rewrite E. auto.
  - right. exists pre'. split; [exact L|reflexivity].
Qed.

Section Q.
Variables (ss rs : Z) (ps : list param).
Hypothesis NE : rs <> ss.
Hypothesis PR : forall pr, In pr ps -> p_rtx pr <> None.
Definition KN (a : spec) : Prop := forall w, In w (a_sent a) -> known ps (w_pt w).

Lemma poll_target s tw a now m (en : bool) s' tw' o pre r post p : R s tw a -> Id ss rs a -> KN a -> V s ->
  x_resends s = pre ++ r :: post -> get_by_seq (x_cache s) (r_seq r) = Some p ->
  poll_packet ex s now m (if en then Some tw else None) ps = Ok (s', tw', o) ->
  exists b rc, o = Some (b, rc) /\ (resent rs [YPacket b rc] = [r_seq r mod U16] \/
     exists pre', (length pre' < length pre)%nat /\ x_resends s' = pre' ++ r :: post /\ same_cache s s' /\ V s').
Proof.
  intros HR HI HK HV ER G. rewrite poll_packet_finish. destruct (choose ex s now) as [[s1 on]| |] eqn:CH; cbn [bind]; try discriminate.
  destruct (choose_frame _ _ _ _ _ CH) as (A1 & A2 & A3). pose proof (choose_cache _ _ _ _ _ CH) as CC. cbn [fst snd]. unfold choose in CH.
  destruct (poll_resend ex s now) as [[sa o1]| |] eqn:E1; cbn [bind] in CH; try discriminate.
  destruct (poll_resend_first HR ER G E1) as (n & -> & CS). injection CH as -> <-.
  apply (poll_resend_ok _ _ _ _ _ _ _ HR) in E1 as (RA & e & H1 & H2 & H3 & H4 & H5). intro F.
  destruct (finish_resend _ _ _ _ _ _ _ _ _ _ _ _ _ _ RA A1 A2 A3 H1 H2 H3 F) as (w & W1 & W2 & W3 & W4 & _ & W6 & W7 & W8 & C).
  destruct C as [[_ X]|(rpt & rs' & hb & bd & C1 & C2 & C3 & C4 & ->)]; [destruct X; apply HK, W1|].
  destruct HI as (_ & HI2 & _). rewrite (HI2 _ C2) in *. eexists. eexists. split; [reflexivity|].
  destruct CS as [(e' & K1 & _)|(pre' & L & EX1)].
  - left. unfold resent. cbn [packets flat_map app filter]. unfold on_ssrc. cbn [snd rc_hdr rtx_header ssrc rc_pad negb].
    rewrite Z.eqb_refl. cbn [andb flat_map]. rewrite app_nil_r. erewrite (osn_repeats _ w).
    + rewrite W3. rewrite K1 in H3. injection H3 as ->. reflexivity.
    + exists bd. split; [exact C4|]. cbn [snd rc_hdr rtx_header HeaderModel.timestamp marker]. split; [|auto].
      unfold payload_of. cbn [snd fst rc_hdr rtx_header header_len]. apply skip_header. reflexivity.
  - right. exists pre'. split; [exact L|]. split; [rewrite W7; exact EX1|].
    pose proof (finish_cache_resend _ _ _ _ _ _ _ _ _ _ _ _ H3 F) as EC.
    assert (forall en, has (buf (by_seq (x_cache s1))) en -> value en = rp (body (value en))) as HV1 by (rewrite CC; exact HV).
    pose proof (has_eget _ _ (r_ei _ _ _ RA) H1) as GE. pose proof (HV1 _ H1) as VE.
    assert (position e = k_seq (body (value e))) as PE by (destruct (r_cache _ _ _ RA _ H1) as (w' & _ & _ & _ & _ & _ & X & Y & _); congruence).
    rewrite PE in GE. split.
    + unfold same_cache. rewrite EC, <- CC. apply (emap_set plain _ _ _ _ GE). rewrite plain_p1, H2, <- VE. reflexivity.
    + unfold V. rewrite EC. intros x Hx. apply has_set in Hx as [Hx|[_ ->]]; [apply HV1, Hx|reflexivity].
Qed.

(** every packet on the main SSRC went out with a payload type of [ps] *)
Lemma kn_step a o y a' : KN a -> steady ps o -> sstep a o y a' -> KN a'.
Proof.
  intros HK ST S. inversion S as [| |now m en ps' y' a1 P| | | | | | | |]; subst; cbn [steady] in ST; try contradiction; try exact HK.
  subst ps'. inversion P; subst; try exact HK. intros w' [<-|Hw]; [assumption|apply HK, Hw].
Qed.

Lemma resends_step s tw al o s' tw' y : steady ps o -> (forall now m en, o <> XPoll now m en ps) ->
  txstep ex al s tw o = Ok (s', tw', y) -> x_cache s' = x_cache s /\ (exists t, x_resends s' = x_resends s ++ t) /\ resent rs [y] = [].
Proof.
  intros ST NP S. assert (exists t : list resend, x_resends s = x_resends s ++ t) as NIL by (exists []; rewrite app_nil_r; reflexivity).
  destruct o as [w|now au c f|now m en ps'|now f|n|now|now| | | |mx' ag' cap|b| |ns nr q1 q2]; cbn [txstep] in S; cbn [steady] in ST;
    try contradiction; try (injection S as <- _ <-; split; [reflexivity|split; [exact NIL|reflexivity]]).
  - unfold tx_timeout in S. destruct (sq_timeout _ now) as [q'| |]; cbn [bind] in S; try discriminate. injection S as <- _ <-.
    destruct (x_audio s); (split; [reflexivity|split; [exact NIL|reflexivity]]).
  - subst ps'. destruct (NP _ _ _ eq_refl).
  - injection S as <- _ <-. destruct f as [r|es| | |b|]; cbn [handle_rtcp]; try (split; [reflexivity|split; [exact NIL|reflexivity]]).
    + destruct (x_rtx s); [destruct (_ =? _)|destruct (_ =? _)]; (split; [reflexivity|split; [exact NIL|reflexivity]]).
    + unfold handle_nack. destruct (last_cached _); [|split; [reflexivity|split; [exact NIL|reflexivity]]].
      split; [reflexivity|]. split; [eexists; reflexivity|reflexivity].
  - injection S as <- _ <-. unfold generate_padding. destruct (padding_enabled s); (split; [reflexivity|split; [exact NIL|reflexivity]]).
  - unfold queue_state, sq_snapshot in S. destruct (move_time_forward _ now) as [t| |]; cbn [bind] in S; try discriminate. injection S as <- _ <-.
    split; [reflexivity|split; [exact NIL|reflexivity]].
  - unfold create_sr in S. destruct (current_rtp_time s now) as [t| |]; cbn [bind] in S; try discriminate. injection S as <- _ <-.
    split; [reflexivity|split; [exact NIL|reflexivity]].
Qed.

Lemma resent_cons y ys : resent rs (y :: ys) = resent rs [y] ++ resent rs ys.
Proof. unfold resent. cbn [packets flat_map]. rewrite app_nil_r, filter_app, flat_map_app. reflexivity. Qed.

Lemma run_target al ops : forall s tw a s' tw' ys pre r post p, R s tw a -> Id ss rs a -> KN a -> V s ->
  x_resends s = pre ++ r :: post -> get_by_seq (x_cache s) (r_seq r) = Some p ->
  Forall op_ok ops -> Forall (steady ps) ops -> (length pre < length (filter is_poll ops))%nat ->
  txrun ex al s tw ops = Ok (s', tw', ys) -> In (r_seq r mod U16) (resent rs ys).
Proof.
  induction ops as [|o ops IH]; intros s tw a s' tw' ys pre r post p HR HI HK HV ER G OK ST L; cbn [txrun]; [cbn in L; lia|].
  inversion OK as [|? ? O1 O2]; subst. inversion ST as [|? ? S1 S2]; subst.
  destruct (txstep ex al s tw o) as [[[s1 t1] y]| |] eqn:S; cbn [bind]; try discriminate.
  cbn [fst snd]. destruct (txrun ex al s1 t1 ops) as [[[s2 t2] ys2]| |] eqn:T; cbn [bind]; try discriminate. intros [= <- <- <-].
  destruct (step_ok _ _ _ _ _ _ _ _ _ HR O1 S) as (a1 & P1 & R1).
  assert (keeps_ssrc o) as KS by (destruct o; try exact I; destruct S1).
  assert (Id ss rs a1) as I1.
  { destruct (packet_dec y) as [(b & rc & ->)|N]; [eapply id_effect; eauto; eapply step_packet; eauto|eapply id_quiet; eauto]. }
  pose proof (kn_step _ _ _ _ HK S1 P1) as K1. rewrite resent_cons. apply in_app_iff.
  destruct (is_poll o) eqn:IP.
  - destruct o as [w|now au c f|now m en ps'|now f|n|now|now| | | |mx' ag' cap|b| |ns nr q1 q2]; try discriminate IP. cbn [steady] in S1. subst ps'.
    cbn [txstep] in S. destruct (poll_packet ex s now m (if en then Some tw else None) ps) as [[[sp tp] o]| |] eqn:P; cbn [bind] in S; try discriminate.
    destruct (poll_target _ _ _ _ _ _ _ _ _ _ _ _ _ HR HI HK HV ER G P) as (b & rc & -> & [E|(pre' & E1 & E2 & E3 & E4)]).
    + injection S as <- _ <-. left. rewrite E. left. reflexivity.
    + injection S as E5 _ _. cbn [fst] in E5. rewrite E5 in *. right.
      assert (exists p', get_by_seq (x_cache s1) (r_seq r) = Some p') as (p' & G').
      { unfold same_cache in E3. unfold get_by_seq in *. pose proof (emap_get plain (by_seq (x_cache s1)) (r_seq r)) as X. rewrite E3, emap_get, G in X.
        destruct (eget (by_seq (x_cache s1)) (r_seq r)); [eauto|discriminate X]. }
      eapply (IH _ _ _ _ _ _ pre' r post p'); eauto. cbn [filter is_poll length] in L. lia.
  - right. assert (forall now m en, o <> XPoll now m en ps) as NP by (intros ? ? ? ->; discriminate IP).
    destruct (resends_step _ _ _ _ _ _ _ S1 NP S) as (EC & (t & ET) & _).
    eapply (IH _ _ _ _ _ _ pre r (post ++ t) p); eauto.
    + unfold V. rewrite EC. exact HV.
    + rewrite ET, ER, <- app_assoc. reflexivity.
    + rewrite EC. exact G.
    + cbn [filter] in L. rewrite IP in L. exact L.
Qed.
End Q.
End N.

Lemma sublist_len {A} (l m : list A) : sublist l m -> (length l <= length m)%nat.
Proof. induction 1; cbn [length]; lia. Qed.
Lemma run_asked ss rs (NE : rs <> ss) ops : forall a ys a', srun a ops ys a' -> Forall keeps_ssrc ops -> Forall op_ok ops -> Id ss rs a ->
  (length (a_asked a') <= length (a_asked a) + length (nacked ops))%nat.
Proof.
  induction ops as [|o ops IH]; intros a ys a' H K O I; inversion H as [|? ? y a1 ? ys1 ? S T]; subst; [lia|].
  inversion K as [|? ? K1 K2]; subst. inversion O as [|? ? O1 O2]; subst.
  assert (length (nacked (o :: ops)) = length (nacked [o]) + length (nacked ops))%nat as EL.
  { change (o :: ops) with ([o] ++ ops). unfold nacked. rewrite flat_map_app, app_length. reflexivity. }
  rewrite EL. destruct (packet_dec y) as [(b & r & ->)|N].
  - pose proof (step_packet _ _ _ _ _ S) as E. assert (Id ss rs a1) as I1 by (eapply id_effect; eauto). pose proof (IH _ _ _ T K2 O2 I1) as X.
    assert (length (a_asked a1) <= length (a_asked a))%nat; [|lia].
    inversion E as [? ? w q asked tw _ _ Q|? ? w asked pad tw _ _ _ Q|? ? asked pad tw _ _ _ Q]; subst; cbn [after a_asked];
      apply sublist_len in Q; try rewrite app_length in Q; lia.
  - assert (Id ss rs a1) as I1 by (eapply id_quiet; eauto). pose proof (IH _ _ _ T K2 O2 I1) as X. destruct I as (_ & _ & PP).
    destruct (step_quiet _ _ _ _ S K1 N O1 PP) as (_ & _ & _ & _ & Q & _). apply sublist_len in Q. rewrite app_length in Q. lia.
Qed.

Lemma Id_new ss rs m r qr tw : Id ss rs (spec0 ss (Some rs) m r qr tw).
Proof. split; [reflexivity|]. split; [intros x [= <-]; reflexivity|]. cbn. lia. Qed.
Lemma R_cached ss rtx m r mw al q0 qr l tw mx ag cap :
  R (set_rtx_cache (tx_new ss rtx m r mw al q0 qr l) mx ag cap al) tw (spec0 ss rtx m r qr tw).
Proof.
  assert (op_ok (XSetCache mx ag cap)) as O by exact I.
  destruct (step_ok (fun _ _ _ => false) al _ tw _ (XSetCache mx ag cap) _ _ _ (R_new ss rtx m r mw al q0 qr l tw) O eq_refl) as (a' & S & HR).
  inversion S; subst; [exact HR|contradiction].
Qed.

Lemma nack_answered ex (EX : forall c a b, ex c a b = false) ss rs (NE : rs <> ss) ps
  (PR : forall pr, In pr ps -> p_rtx pr <> None) mid_ rid_ mw al q0 qr lst mx ag cap tw ops s1 tw1 ys n0 l l0 pl tl i pk t now es ops2 s2 tw2 ys2 :
  let s0 := set_rtx_cache (tx_new ss (Some rs) mid_ rid_ mw al q0 qr lst) mx ag cap al in
  Forall op_ok ops -> Forall (steady ps) ops -> (forall w, In w (writes ops) -> w_nack w = true) ->
  txrun ex al s0 tw ops = Ok (s1, tw1, ys) ->
  l = media_sent ss ops ys -> 0 < ag -> numbered_from n0 l -> in_order al l -> l = l0 ++ [(pl, tl)] ->
  nth_error l i = Some (pk, t) -> zlen l - Z.of_nat i <= Z.min (Z.max 10 mx) 32768 -> tl - t <= ag ->
  op_ok (XRtcp now (FNack es)) -> In (pseq pk mod U16) (flat_map listed es) ->
  Forall op_ok ops2 -> Forall (steady ps) ops2 ->
  zlen (nacked ops) + zlen (flat_map listed es) <= zlen (filter is_poll ops2) ->
  txrun ex al s1 tw1 (XRtcp now (FNack es) :: ops2) = Ok (s2, tw2, ys2) ->
  In (pseq pk mod U16) (resent rs ys2).
Proof.
  intros s0 OK ST NW T1 EL HA HN HT El Hi Hc Hf ON HIn OK2 ST2 HL T2.
  assert (R s0 tw (spec0 ss (Some rs) mid_ rid_ qr tw)) as R0 by apply R_cached.
  pose proof (Id_new ss rs mid_ rid_ qr tw) as I0.
  assert (AN (spec0 ss (Some rs) mid_ rid_ qr tw)) as A0 by (intros w []).
  assert (CI mx ag al s0 []) as C0.
  { split; [intros en H; apply has_nones in H as []|]. eexists. split; [reflexivity|]. reflexivity. }
  destruct (run_cache mx ag al ss rs ps NE PR ex ops _ _ _ _ _ _ _ R0 I0 A0 C0 OK ST NW T1) as (C1 & a1 & S1 & R1 & I1 & A1).
  cbn [app] in C1. rewrite <- EL in C1. destruct C1 as (V1 & c & CA & CE).
  pose proof (C08_recent_packets_are_retained unit mx ag al n0 l c l0 pl tl HA HN HT CA El i pk t Hi ltac:(lia) Hf) as G.
  pose proof (cache_last mx ag al n0 l c l0 pl tl HA HN HT CA El) as LC.
  assert (KN ps a1) as K1.
  { assert (KN ps (spec0 ss (Some rs) mid_ rid_ qr tw)) as K0 by (intros w []). clear - S1 ST K0.
    revert K0. generalize dependent (spec0 ss (Some rs) mid_ rid_ qr tw). revert a1 ys.
    induction ops as [|o ops IH]; intros a1 ys b S K0; inversion S; subst; [exact K0|]. inversion ST; subst.
    eapply IH; [assumption|eassumption|]. eapply kn_step; eauto. }
  assert (exists p, get_by_seq (x_cache s1) (pseq pk) = Some p) as (p & GP).
  { unfold get_by_seq in *. rewrite <- CE, emap_get in G. destruct (eget (by_seq (x_cache s1)) (pseq pk)); [eauto|discriminate G]. }
  assert (last_cached (x_cache s1) = Some (pseq pl)) as LC1.
  { unfold last_cached, elast_position in *. rewrite <- CE, emap_inert in LC. destruct (is_inert _); [discriminate|]. rewrite <- LC. reflexivity. }
  cbn [txrun txstep bind] in T2. cbn [fst snd] in T2.
  set (s1' := handle_rtcp s1 now (FNack es)) in *.
  destruct (txrun ex al s1' tw1 ops2) as [[[s3 t3] ys3]| |] eqn:T3; cbn [bind] in T2; try discriminate. injection T2 as <- <- <-.
  assert (txstep ex al s1 tw1 (XRtcp now (FNack es)) = Ok (s1', tw1, YNone)) as SN by reflexivity.
  destruct (step_ok _ _ _ _ _ _ _ _ _ R1 ON SN) as (a2 & P2 & R2).
  assert (Id ss rs a2) as I2 by (eapply id_quiet; eauto; [exact I|discriminate]).
  assert (KN ps a2) as K2 by (eapply kn_step; eauto; exact I).
  (* the sequence numbers *)
  assert (forall j x u, nth_error l j = Some (x, u) -> pseq x = n0 + Z.of_nat j) as NUM by exact HN.
  assert (pseq pl = n0 + zlen l - 1) as EPL.
  { rewrite (NUM (length l0) pl tl).
    - rewrite El, zlen_app. unfold zlen. cbn. lia.
    - rewrite El, nth_error_app2, Nat.sub_diag by lia. reflexivity. }
  assert (pseq pk = n0 + Z.of_nat i) as EPK by (eapply NUM; eauto).
  assert (Z.of_nat i < zlen l) as IL by (assert (i < length l)%nat by (apply nth_error_Some; congruence); unfold zlen; lia).
  assert (0 <= pseq pk < U64 /\ 0 <= pseq pl < U64) as [B1 B2].
  { split.
    - apply eget_has in GP as (en & H1 & H2 & _). destruct (entry_pkt _ _ (r_cache _ _ _ R1 _ H1)) as (w & W1 & _ & W3 & _).
      pose proof (r_seqs _ _ _ R1 w (or_introl W1)). lia.
    - assert (last_position (by_seq (x_cache s1)) = Some (pseq pl)) as LL.
      { unfold last_cached, elast_position in LC1. destruct (is_inert _); [discriminate|exact LC1]. }
      apply (r_last _ _ _ R1) in LL. exact LL. }
  set (f := fun q => match get_by_seq (x_cache s1) q with Some p => [mkRe q now (zlen (k_pay (body p)))] | None => [] end).
  assert (x_resends s1' = x_resends s1 ++ flat_map f (flat_map (fun e => nack_seqs e (pseq pl)) es)) as ER.
  { unfold s1', handle_rtcp, handle_nack. cbn [set_stats x_cache x_resends]. rewrite LC1. reflexivity. }
  assert (In (pseq pk) (flat_map (fun e => nack_seqs e (pseq pl)) es)) as IQ.
  { apply in_flat_map in HIn as (e & E1 & E2). apply in_flat_map. exists e. split; [exact E1|].
    unfold nack_seqs. fold (listed e). apply in_map_iff. exists (pseq pk mod U16). split; [|exact E2].
    unfold extend_u16. change U16 with (2 ^ 16). apply extend_exact; [unfold width; lia|exact B2|exact B1|].
    change (2 ^ 16 / 2) with 32768. lia. }
  apply in_split in IQ as (q1 & q2 & EQ).
  assert (f (pseq pk) = [mkRe (pseq pk) now (zlen (k_pay (body p)))]) as FP by (unfold f; rewrite GP; reflexivity).
  rewrite EQ, flat_map_app in ER. cbn [flat_map] in ER. rewrite FP in ER. cbn [app] in ER. rewrite app_assoc in ER.
  rewrite resent_cons. apply in_app_iff. right.
  change (pseq pk) with (r_seq (mkRe (pseq pk) now (zlen (k_pay (body p))))).
  eapply (run_target ex EX ss rs ps NE al ops2 s1' tw1 a2); try eassumption.
  - unfold s1', handle_rtcp, handle_nack. cbn [set_stats x_cache]. rewrite LC1. exact V1.
  - assert (x_cache s1' = x_cache s1) as -> by (unfold s1', handle_rtcp, handle_nack; cbn [set_stats x_cache]; rewrite LC1; reflexivity).
    exact GP.
  - pose proof (sublist_len _ _ (r_asked _ _ _ R1)) as L1. rewrite map_length in L1.
    assert (Forall keeps_ssrc ops) as KS by (eapply Forall_impl; [|exact ST]; intros o Ho; destruct o; try exact I; destruct Ho).
    pose proof (run_asked ss rs NE ops _ _ _ S1 KS OK I0) as L2. cbn [spec0 a_asked length] in L2.
    assert (length q1 < length (flat_map listed es))%nat as L3.
    { assert (length (flat_map listed es) = length (flat_map (fun e => nack_seqs e (pseq pl)) es)) as ->.
      { clear. induction es as [|e es IH]; [reflexivity|]. cbn [flat_map]. rewrite !app_length, IH. unfold nack_seqs. fold (listed e). rewrite map_length. reflexivity. }
      rewrite EQ, app_length. cbn [length]. lia. }
    assert (length (flat_map f q1) <= length q1)%nat as L4.
    { clear. induction q1 as [|q q1 IH]; [cbn; lia|]. cbn [flat_map]. rewrite app_length. unfold f at 1.
      destruct (get_by_seq _ q); cbn [length]; lia. }
    rewrite app_length. unfold zlen in HL. lia.
Qed.

(** * transport-wide numbers *)
Lemma run_twcc ops : forall a ys a', srun a ops ys a' -> (forall o, In o ops -> numbered o) ->
  transport_numbers ys = counting (a_twcc a) (length (packets ys)) /\ a_twcc a' = a_twcc a + zlen (packets ys).
Proof.
  induction ops as [|o ops IH]; intros a ys a' H N; inversion H as [|? ? y a1 ? ys1 ? S T]; subst; [split; [reflexivity|unfold zlen; cbn; lia]|].
  destruct (IH _ _ _ T (fun o' Ho => N o' (or_intror Ho))) as [E1 E2]. specialize (N o (or_introl eq_refl)).
  destruct (packet_dec y) as [(b & r & ->)|NP].
  - assert (transport_cc (ext_vals (rc_hdr r)) = Some (a_twcc a mod U16) /\ a_twcc a1 = a_twcc a + 1) as [F1 F2].
    { inversion S as [| |now m en ps y a2 P| | | | | | | |? ? K1 K2]; subst; [|destruct K2]. cbn [numbered] in N. subst en.
      inversion P; subst; cbn [rc_hdr main_header rtx_header blank_header ext_vals common transport_cc after a_twcc b2z]; auto. }
    change (packets (YPacket b r :: ys1)) with ((b, r) :: packets ys1).
    change (transport_numbers (YPacket b r :: ys1)) with (transport_cc (ext_vals (rc_hdr r)) :: transport_numbers ys1).
    rewrite F1. cbn [length counting]. rewrite <- F2, <- E1. split; [reflexivity|]. rewrite E2, F2. unfold zlen. cbn [length]. lia.
  - unfold transport_numbers in *. rewrite !not_packet by exact NP.
    assert (a_twcc a1 = a_twcc a) as F2.
    { inversion S as [| |now m en ps y' a2 P| | | | | | | |? ? K1 K2]; subst; try reflexivity.
      inversion P; subst; try reflexivity; destruct (NP _ _ eq_refl). }
    rewrite <- F2. split; [exact E1|exact E2].
Qed.

(** * media: all of it, in order *)
Lemma sendable_known ps w : sendable ps w = true <-> known ps (w_pt w).
Proof.
  unfold sendable, known. rewrite existsb_exists. split; intros (pr & H1 & H2); exists pr; (split; [exact H1|lia]).
Qed.

Section F.
Variables (ss rs : Z) (ps : list param).
Hypothesis NE : rs <> ss.

(** a step seen from the media queue *)
Lemma step_media a o y a' : Id ss rs a -> steady ps o -> op_ok o -> sstep a o y a' ->
  filter (on_ssrc ss) (packets [y]) = [] /\ map fst (a_queue a') = map fst (a_queue a) ++ writes [o] \/
  exists w q, a_queue a = (w, true) :: q /\ a_queue a' = q /\ is_poll o = true /\
    (sendable ps w = false /\ packets [y] = [] \/
     sendable ps w = true /\ exists p, filter (on_ssrc ss) (packets [y]) = [p] /\ carries p w).
Proof.
  intros HI ST OK S.
  inversion S as [|? ? ? ?|now m en ps' y' a1 P| | | | | | | |? ? K1 K2]; subst; cbn [steady] in ST; try contradiction;
    try (left; split; [reflexivity|cbn [after a_queue writes flat_map]; rewrite ?map_app, ?app_nil_r, ?map_map; reflexivity]).
  - subst ps'. inversion P as [w q hb bd asked E KN SA tw HW BO|w rpt rs' n asked hb bd IN NK RP ER NX SA tw HW BO
    |w rpt rs' n asked hb bd IN NK RP ER NX SA P50 NQ tw HW BO|pt rpt rs' n asked hb len k RP ER NX SA P0 E1 E2 E3 NQ tw HW
    |w q asked E KN SA|asked nx pad _ _ _ _]; subst.
    + right. exists w, q. split; [exact E|]. split; [reflexivity|]. split; [reflexivity|]. right. split; [apply sendable_known, KN|].
      eexists. split; [cbn [packets flat_map app filter]; unfold on_ssrc; cbn [snd rc_hdr main_header ssrc]|].
      * destruct HI as (-> & _). rewrite Z.eqb_refl. reflexivity.
      * split; [reflexivity|]. split; [|reflexivity]. unfold payload_of. cbn [snd fst rc_hdr main_header header_len]. rewrite skip_header by reflexivity. exact BO.
    + left. destruct HI as (_ & HI & _). specialize (HI _ ER). split; [|cbn [after a_queue writes flat_map]; rewrite app_nil_r; reflexivity].
      cbn [packets flat_map app filter]. unfold on_ssrc. cbn [snd rc_hdr rtx_header ssrc]. replace (rs' =? ss) with false by lia. reflexivity.
    + left. destruct HI as (_ & HI & _). specialize (HI _ ER). split; [|cbn [after a_queue writes flat_map]; rewrite app_nil_r; reflexivity].
      cbn [packets flat_map app filter]. unfold on_ssrc. cbn [snd rc_hdr rtx_header ssrc]. replace (rs' =? ss) with false by lia. reflexivity.
    + left. destruct HI as (_ & HI & _). specialize (HI _ ER). split; [|cbn [after a_queue writes flat_map]; rewrite app_nil_r; reflexivity].
      cbn [packets flat_map app filter]. unfold on_ssrc. cbn [snd rc_hdr blank_header ssrc]. replace (rs' =? ss) with false by lia. reflexivity.
    + right. exists w, q. split; [exact E|]. split; [reflexivity|]. split; [reflexivity|]. left. split; [|reflexivity].
      destruct (sendable ps w) eqn:Q; [|reflexivity]. apply sendable_known in Q. contradiction.
    + left. split; [reflexivity|]. cbn [after a_queue writes flat_map]. rewrite app_nil_r. reflexivity.
  - left. destruct o; try contradiction; (split; [destruct y; [reflexivity|contradiction|reflexivity..]|cbn [writes flat_map]; rewrite app_nil_r; reflexivity]).
Qed.
Lemma id_step a o y a' : Id ss rs a -> steady ps o -> op_ok o -> sstep a o y a' -> Id ss rs a'.
Proof.
  intros HI ST OK S. assert (keeps_ssrc o) as KS by (destruct o; try exact I; destruct ST).
  destruct (packet_dec y) as [(b & rc & ->)|N]; [eapply id_effect; eauto; eapply step_packet; eauto|eapply id_quiet; eauto].
Qed.
Lemma packets_cons y ys : packets (y :: ys) = packets [y] ++ packets ys.
Proof. unfold packets. cbn [flat_map]. rewrite app_nil_r. reflexivity. Qed.
Lemma writes_cons o ops : writes (o :: ops) = writes [o] ++ writes ops.
Proof. unfold writes. cbn [flat_map]. rewrite app_nil_r. reflexivity. Qed.
Lemma nacked_cons o ops : nacked (o :: ops) = nacked [o] ++ nacked ops.
Proof. unfold nacked. cbn [flat_map]. rewrite app_nil_r. reflexivity. Qed.

Lemma run_media ops : forall a ys a', srun a ops ys a' -> Id ss rs a -> Forall (steady ps) ops -> Forall op_ok ops ->
  exists ws, Forall2 carries (filter (on_ssrc ss) (packets ys)) ws /\
    ws ++ filter (sendable ps) (map fst (a_queue a')) = filter (sendable ps) (map fst (a_queue a) ++ writes ops).
Proof.
  induction ops as [|o ops IH]; intros a ys a' H HI ST OK; inversion H as [|? ? y a1 ? ys1 ? S T]; subst.
  { exists []. split; [constructor|]. cbn [writes flat_map app]. rewrite app_nil_r. reflexivity. }
  inversion ST as [|? ? S1 S2]; subst. inversion OK as [|? ? O1 O2]; subst.
  destruct (IH _ _ _ T (id_step _ _ _ _ HI S1 O1 S) S2 O2) as (ws & W1 & W2).
  rewrite packets_cons, filter_app, writes_cons.
  destruct (step_media _ _ _ _ HI S1 O1 S) as [(E1 & E2)|(w & q & E1 & E2 & E3 & C)].
  - rewrite E1. cbn [app]. exists ws. split; [exact W1|]. rewrite W2, E2, app_assoc. reflexivity.
  - destruct o; try discriminate E3. cbn [writes flat_map app]. rewrite E1. cbn [map fst app filter]. subst q.
    destruct C as [[C1 C2]|[C1 (p & C2 & C3)]]; rewrite C1, C2.
    + cbn [filter app]. exists ws. auto.
    + exists (w :: ws). cbn [app]. split; [constructor; assumption|]. rewrite W2. reflexivity.
Qed.

Lemma run_flush ops : forall a ys a' q1 q2, srun a ops ys a' -> Id ss rs a -> KN ps a -> Forall (steady ps) ops -> Forall op_ok ops ->
  a_queue a = map (fun w => (w, true)) q1 ++ q2 ->
  (length q1 + length (a_asked a) + length (nacked ops) <= length (filter is_poll ops))%nat ->
  exists p1 p2, filter (on_ssrc ss) (packets ys) = p1 ++ p2 /\ Forall2 carries p1 (filter (sendable ps) q1).
Proof.
  induction ops as [|o ops IH]; intros a ys a' q1 q2 H HI HK ST OK EQ L; inversion H as [|? ? y a1 ? ys1 ? S T]; subst.
  { destruct q1; [|cbn in L; lia]. exists [], []. split; [reflexivity|constructor]. }
  inversion ST as [|? ? S1 S2]; subst. inversion OK as [|? ? O1 O2]; subst.
  pose proof (id_step _ _ _ _ HI S1 O1 S) as I1. pose proof (kn_step ps _ _ _ _ HK S1 S) as K1.
  destruct q1 as [|w q1]; [exists [], (filter (on_ssrc ss) (packets (y :: ys1))); split; [reflexivity|constructor]|].
  rewrite nacked_cons, app_length in L. cbn [map app] in EQ.
  rewrite packets_cons, filter_app.
  inversion S as [|? ? ? ?|now m en ps' y' a2 P|now es asked SA| | | | | | |? ? K1' K2]; subst; cbn [steady] in S1; try contradiction.
  - cbn [packets flat_map filter app]. eapply (IH _ _ _ (w :: q1) (q2 ++ [(w0, false)])); eauto; try solve [cbn [after a_asked is_poll filter length nacked flat_map app] in *; lia].
    cbn [after a_queue]. rewrite EQ. cbn [map app]. rewrite <- app_assoc. reflexivity.
  - cbn [packets flat_map filter app]. eapply (IH _ _ _ (w :: q1) (map (fun x => (fst x, true)) q2)); eauto; try solve [cbn [after a_asked is_poll filter length nacked flat_map app] in *; lia].
    cbn [after a_queue]. rewrite EQ. cbn [map app fst]. rewrite map_app, map_map. reflexivity.
  - subst ps'. cbn [nacked flat_map length app is_poll filter] in L.
    inversion P as [w' q hb bd asked E KNW SA tw HW BO|w' rpt rs' n asked hb bd IN NK RP ER NX SA tw HW BO
    |w' rpt rs' n asked hb bd IN NK RP ER NX SA P50 NQ tw HW BO|pt rpt rs' n asked hb len k RP ER NX SA P0 E1 E2 E3 NQ tw HW
    |w' q asked E KNW SA|asked nx pad NW _ _ _]; subst.
    + rewrite EQ in E. injection E as <- <-. apply sublist_len in SA.
      assert ((length q1 + length asked + length (nacked ops) <= length (filter is_poll ops))%nat) as L' by (cbn [length] in L; lia).
      destruct (IH _ _ _ q1 q2 T I1 K1 S2 O2 eq_refl L') as (p1 & p2 & E1 & E2).
      rewrite E1. cbn [filter]. replace (sendable ps w) with true by (symmetry; apply sendable_known, KNW).
      eexists (_ :: p1), p2. split.
      * cbn [packets flat_map app filter]. unfold on_ssrc at 1. cbn [snd rc_hdr main_header ssrc]. destruct HI as (-> & _). rewrite Z.eqb_refl. reflexivity.
      * constructor; [|exact E2]. split; [reflexivity|]. split; [|reflexivity].
        unfold payload_of. cbn [snd fst rc_hdr main_header header_len]. rewrite skip_header by reflexivity. exact BO.
    + destruct HI as (_ & HI & _). specialize (HI _ ER). apply sublist_len in SA. cbn [length] in SA.
      cbn [packets flat_map app filter]. unfold on_ssrc at 1. cbn [snd rc_hdr rtx_header ssrc]. replace (rs' =? ss) with false by lia. cbn [app].
      eapply (IH _ _ _ (w :: q1) q2); eauto. cbn [after a_asked length] in *. lia.
    + destruct (NQ _ _ EQ).
    + destruct (NQ _ _ EQ).
    + rewrite EQ in E. injection E as <- <-. apply sublist_len in SA.
      assert ((length q1 + length asked + length (nacked ops) <= length (filter is_poll ops))%nat) as L' by (cbn [length] in L; lia).
      destruct (IH _ _ _ q1 q2 T I1 K1 S2 O2 eq_refl L') as (p1 & p2 & E1 & E2).
      cbn [packets flat_map app filter]. destruct (sendable ps w) eqn:Q; [apply sendable_known in Q; contradiction|]. eauto.
    + destruct (NW _ _ EQ) as (w' & W1 & W2). destruct W2. apply HK, W1.
  - cbn [packets flat_map filter app]. eapply (IH _ _ _ (w :: q1) q2); eauto.
    apply sublist_len in SA. rewrite app_length in SA. cbn [after a_asked is_poll filter length nacked flat_map app] in *. rewrite app_nil_r in L. lia.
  - cbn [packets flat_map filter app]. eapply (IH _ _ _ (w :: q1) q2); eauto; try solve [cbn [after a_asked is_poll filter length nacked flat_map app] in *; lia].
  - cbn [packets flat_map filter app]. eapply (IH _ _ _ (w :: q1) q2); eauto; destruct f; cbn [after a_asked is_poll filter length nacked flat_map app] in *; try contradiction; lia.
  - cbn [packets flat_map filter app]. eapply (IH _ _ _ (w :: q1) q2); eauto; try solve [cbn [after a_asked is_poll filter length nacked flat_map app] in *; lia].
  - assert (packets [y] = []) as -> by (destruct y; [reflexivity|contradiction|reflexivity..]). cbn [filter app].
    eapply (IH _ _ _ (w :: q1) q2); eauto; destruct o; try contradiction; cbn [after a_asked is_poll filter length nacked flat_map app] in *; lia.
Qed.
End F.

(** Proofs for C45: the statistics, the clock and the requests of an outgoing stream. *)
From Verif Require Import Base BaseFacts MtimeModel SendQueueModel EvictModel EvictSpec EvictProps Vp8Model ExtModel HeaderModel NackModel
  TxModel TxSpec TxProofs TxProofs2 TxProofs3 TxProofs4 SrSpec.

(** the fields a poll's choice leaves alone *)
Definition side (s : tx) := (x_wall s, x_clock s, x_cname s, x_audio s, x_kf s, x_remb s).

Lemma choose_stats ex s now s1 o : choose ex s now = Ok (s1, o) -> side s1 = side s /\
  match o with
  | Some (n, false) => st_packets (x_stats s1) = st_packets (x_stats s) + 1 /\
      st_bytes (x_stats s1) = st_bytes (x_stats s) + zlen (k_pay (n_pkt n)) /\ (forall k, n_kind n <> KBlank k)
  | Some (n, true) => x_stats s1 = x_stats s1 /\ st_packets (x_stats s1) = st_packets (x_stats s) /\ st_bytes (x_stats s1) = st_bytes (x_stats s) /\ n_kind n <> KReg
  | None => st_packets (x_stats s1) = st_packets (x_stats s) /\ st_bytes (x_stats s1) = st_bytes (x_stats s)
  end.
Proof.
  assert (forall s s1 o, poll_resend ex s now = Ok (s1, o) -> side s1 = side s /\
    match o with Some n => st_packets (x_stats s1) = st_packets (x_stats s) + 1 /\ st_bytes (x_stats s1) = st_bytes (x_stats s) + zlen (k_pay (n_pkt n)) /\ (exists k, n_kind n = KResend k)
    | None => st_packets (x_stats s1) = st_packets (x_stats s) /\ st_bytes (x_stats s1) = st_bytes (x_stats s) end) as P1.
  { clear. intros s s1 o. unfold poll_resend.
    destruct (match x_cap s with None => Ok (s, false) | Some c => do (s1, rt) <- ratio_down s now; Ok (s1, ex c (fst rt) (snd rt)) end)
      as [[s0 over]| |] eqn:C; cbn [bind]; try discriminate.
    assert (side s0 = side s /\ st_packets (x_stats s0) = st_packets (x_stats s) /\ st_bytes (x_stats s0) = st_bytes (x_stats s)) as (A & B1 & B2).
    { destruct (x_cap s) as [c|].
      - destruct (ratio_down s now) as [[s' rt]| |] eqn:RD; cbn [bind] in C; try discriminate. injection C as <- _. revert RD. unfold ratio_down.
        destruct (st_tx (x_stats s)); [|discriminate]. destruct (st_rtx (x_stats s)); [|discriminate]. destruct (x_ratio s) as [[r t] ts].
        destruct (_ <? _); intros [= <- _]; auto.
      - injection C as <- _. auto. }
    destruct over; [intros [= <- <-]; auto|]. destruct (next_resend _ _) as [[rest [q|]]| |]; cbn [bind]; try discriminate.
    - destruct (get_by_seq _ q); [|discriminate]. intros [= <- <-]. cbn -[zlen side]. split; [exact A|]. split; [lia|]. split; [lia|eauto].
    - intros [= <- <-]. auto. }
  assert (forall s s1 o, poll_regular s now = (s1, o) -> side s1 = side s /\
    match o with Some n => st_packets (x_stats s1) = st_packets (x_stats s) + 1 /\ st_bytes (x_stats s1) = st_bytes (x_stats s) + zlen (k_pay (n_pkt n)) /\ n_kind n = KReg
    | None => st_packets (x_stats s1) = st_packets (x_stats s) /\ st_bytes (x_stats s1) = st_bytes (x_stats s) end) as P2.
  { clear. intros s s1 o. unfold poll_regular. destruct (sq_peek (x_q s)); intros [= <- <-]; auto. }
  assert (forall s s1 o, poll_padding s = Ok (s1, o) -> side s1 = side s /\ x_stats s1 = x_stats s /\ match o with Some n => n_kind n <> KReg | None => True end) as P3.
  { clear. intros s s1 o. unfold poll_padding. destruct (negb _); [intros [= <- <-]; auto|]. destruct (x_padding s =? 0); [intros [= <- <-]; auto|].
    match goal with |- bind ?x _ = _ -> _ => destruct x as [[p|]| |] end; cbn [bind]; try discriminate.
    - intros [= <- <-]. repeat split; auto; discriminate.
    - destruct (x_pt_pad s); [|discriminate]. intros [= <- <-]. repeat split; auto; discriminate. }
  unfold choose. destruct (poll_resend ex s now) as [[sa [n|]]| |] eqn:E1; cbn [bind]; try discriminate.
  - intros [= <- <-]. apply P1 in E1 as (A & B & C & k & D). split; [exact A|]. split; [exact B|]. split; [exact C|]. intros k'. congruence.
  - destruct (poll_regular sa now) as [sb [n|]] eqn:E2.
    + intros [= <- <-]. apply P1 in E1 as (A & B & C). apply P2 in E2 as (D & E & F & G). split; [congruence|]. split; [lia|]. split; [lia|]. intros k'. congruence.
    + destruct (poll_padding sb) as [[sc o3]| |] eqn:E3; cbn [bind]; try discriminate. intros [= <- <-].
      apply P1 in E1 as (A & B & C). apply P2 in E2 as (D & E & F). apply P3 in E3 as (G & H & I). split; [congruence|].
      destruct o3; rewrite H; repeat split; auto; lia.
Qed.

Lemma put_back_side s k p : side (put_back s k p) = side s /\ x_stats (put_back s k p) = x_stats s.
Proof. destruct k; cbn; auto. destruct (queue (x_q s)) as [|[? ?] ?]; auto. Qed.

Lemma finish_stats s0 s1 n pad now m tw ps s' tw' o : finish s0 s1 n pad now m tw ps = Ok (s', tw', o) ->
  x_stats s' = x_stats s1 /\
  (x_wall s', x_cname s', x_audio s', x_kf s', x_remb s') = (x_wall s1, x_cname s1, x_audio s1, x_kf s1, x_remb s1) /\
  match o with
  | None => x_clock s' = x_clock s1 /\ ((forall k, n_kind n <> KBlank k) -> ~ known ps (payload_type (k_hdr (n_pkt n))))
  | Some (b, r) => rc_pad r = pad /\
      match n_kind n with
      | KReg => rc_size r = zlen (k_pay (n_pkt n)) /\ ssrc (rc_hdr r) = ssrc (k_hdr (n_pkt n)) /\
          exists pr, find (fun pr => p_pt pr =? payload_type (rc_hdr r)) ps = Some pr /\ x_clock s' = Some (p_clock pr)
      | KResend _ => rc_size r = zlen (k_pay (n_pkt n)) + 2 /\ x_rtx s1 = Some (ssrc (rc_hdr r)) /\ x_clock s' = x_clock s1
      | KBlank _ => x_rtx s1 = Some (ssrc (rc_hdr r)) /\ x_clock s' = x_clock s1
      end
  end.
Proof.
  unfold finish. cbv zeta. set (p1 := p1_of s0 (n_pkt n)).
  assert (PT : payload_type (k_hdr p1) = payload_type (k_hdr (n_pkt n)) /\ k_pay p1 = k_pay (n_pkt n) /\ ssrc (k_hdr p1) = ssrc (k_hdr (n_pkt n))) by (unfold p1, p1_of; destruct (x_ack s0); auto).
  destruct PT as (PT & PY & PS). pose proof (find_param ps (payload_type (k_hdr p1))) as FP.
  destruct (find (fun pr => p_pt pr =? payload_type (k_hdr p1)) ps) as [pr|] eqn:FD.
  - destruct (prep s1 n p1 pr) as [[p2 h]| |] eqn:PR; cbn [bind]; try discriminate.
    destruct (put_back_side s1 (n_kind n) p2) as (PB1 & PB2). unfold side in PB1. set (s2 := put_back s1 (n_kind n) p2) in *.
    destruct (wire n p2 (stamp_hdr h m now tw) m) as [w| |] eqn:WI; cbn [bind]; try discriminate.
    assert (PP : k_pay p2 = k_pay p1 /\ match n_kind n with KReg => payload_type h = payload_type (k_hdr p1) /\ ssrc h = ssrc (k_hdr p1) | _ => x_rtx s1 = Some (ssrc h) end).
    { revert PR. unfold prep. destruct (n_kind n); [intros [= <- <-]; auto|..]; destruct (p_rtx pr); try discriminate; destruct (x_rtx s1); try discriminate; intros [= <- <-]; auto. }
    destruct PP as (PP1 & PP2).
    assert (SH : forall l, payload_type (h_len (stamp_hdr h m now tw) l) = payload_type h /\ ssrc (h_len (stamp_hdr h m now tw) l) = ssrc h) by (intro l; rewrite stamp_common; split; reflexivity).
    destruct (wire_header _ _ _ _ _ WI) as (hb & WH).
    destruct w as [[[bytes size] hlen]|].
    + destruct (sent s2 n now pr (payload_type (k_hdr p1))) as [s3| |] eqn:SE; cbn [bind]; try discriminate.
      intros [= <- <- <-]. cbn [rc_pad rc_size rc_hdr].
      assert (x_stats s3 = x_stats s2 /\ (x_wall s3, x_cname s3, x_audio s3, x_kf s3, x_remb s3) = (x_wall s2, x_cname s2, x_audio s2, x_kf s2, x_remb s2) /\
        x_clock s3 = match n_kind n with KReg => Some (p_clock pr) | _ => x_clock s2 end) as (A1 & A2 & A3).
      { revert SE. unfold sent. destruct (n_kind n); [|intros [= <-]; auto..].
        destruct (sq_pop _ _) as [[q [e|]]| |]; cbn [bind]; try discriminate. destruct (k_nack _); [|intros [= <-]; auto].
        destruct (cache_sent _ _ _); cbn [bind]; try discriminate. intros [= <-]. auto. }
      split; [congruence|]. split; [congruence|]. split; [reflexivity|].
      destruct (SH hlen) as (SH1 & SH2). destruct (n_kind n) eqn:NK.
      * destruct (wire_reg _ _ _ _ _ _ NK WH WI) as (bd & W & _). injection W as -> -> ->. rewrite PP1, PY. split; [reflexivity|].
        destruct PP2 as (Q1 & Q2). split; [congruence|]. exists pr. rewrite SH1, Q1. split; [exact FD|exact A3].
      * destruct (wire_osn _ _ _ _ _ _ _ NK WH WI) as (bd & W & _). injection W as -> -> ->. rewrite PP1, PY. split; [reflexivity|].
        split; congruence.
      * split; congruence.
    + intros [= <- <- <-]. split; [congruence|]. split; [congruence|]. split; [congruence|]. intro NB. exfalso. destruct (n_kind n) eqn:NK.
      * destruct (wire_reg _ _ _ _ _ _ NK WH WI) as (bd & W & _). discriminate.
      * destruct (wire_osn _ _ _ _ _ _ _ NK WH WI) as (bd & W & _). discriminate.
      * exact (NB _ eq_refl).
  - rewrite PT in FP. destruct (put_back_side s1 (n_kind n) p1) as (PB1 & PB2). unfold side in PB1.
    destruct (n_kind n).
    + destruct (sq_pop _ _) as [[q e]| |]; cbn [bind]; try discriminate. intros [= <- <- <-].
      split; [exact PB2|]. injection PB1 as B1 B2 B3 B4 B5 B6. split; [exact (f_equal5 (fun a b c d e => (a, b, c, d, e)) B1 B3 B4 B5 B6)|]. split; [exact B2|]. intro; exact FP.
    + intros [= <- <- <-]. split; [exact PB2|]. split; [exact (f_equal (fun x => match x with (a, b, c, d, e, f) => (a, c, d, e, f) end) PB1)|]. split; [exact (f_equal (fun x => match x with (a, b, c, d, e, f) => b end) PB1)|]. intro; exact FP.
    + intros [= <- <- <-]. split; [exact PB2|]. split; [exact (f_equal (fun x => match x with (a, b, c, d, e, f) => (a, c, d, e, f) end) PB1)|]. split; [exact (f_equal (fun x => match x with (a, b, c, d, e, f) => b end) PB1)|]. intro; exact FP.
Qed.

(** where the packets come from *)
Definition FW (ws : list rtpwrite) (a : spec) : Prop := forall w, In w (a_sent a) \/ In w (map fst (a_queue a)) -> In w ws.
Lemma fw_step ws a o y a' : sstep a o y a' -> FW ws a -> (forall w, o = XWrite w -> In w ws) -> FW ws a'.
Proof.
  unfold FW. intros S F W.
  inversion S; subst; cbn [after a_sent a_queue]; try exact F.
  - intros w' [H|H]; [auto|]. rewrite map_app in H. apply in_app_iff in H as [H|[<-|[]]]; [auto|]. apply W. reflexivity.
  - intros w' [H|H]; [auto|]. rewrite map_map in H. cbn in H. apply F. right. exact H.
  - match goal with H : spoll _ _ _ _ _ _ _ |- _ => inversion H; subst; clear H end; cbn [after a_sent a_queue]; try exact F;
      match goal with H : a_queue a = _ |- _ => rewrite H in F; cbn [map fst] in F end; intros w' H'.
    + destruct H' as [[<-|H']|H']; apply F; [right; left; reflexivity|left; exact H'|right; right; exact H'].
    + destruct H' as [H'|H']; apply F; [left; exact H'|right; right; exact H'].
  - intros w' [[]|H]. auto.
  - intros w' [[]|[]].
  - intros w' [[]|[]].
Qed.

Lemma poll_known ex s tw a now m (en : bool) ps s' tw' o : R s tw a -> (forall w, In w (a_sent a) \/ In w (map fst (a_queue a)) -> known ps (w_pt w)) ->
  forall ss rs, rs <> ss -> Id ss rs a ->
  poll_packet ex s now m (if en then Some tw else None) ps = Ok (s', tw', o) ->
  st_packets (x_stats s') = st_packets (x_stats s) + zlen (media_out [yout o]) /\
  st_bytes (x_stats s') = st_bytes (x_stats s) + octets rs (media_out [yout o]) /\
  x_clock s' = clock_after ss (x_clock s) (XPoll now m en ps, yout o) /\
  (x_wall s', x_cname s', x_audio s', x_kf s', x_remb s') = (x_wall s, x_cname s, x_audio s, x_kf s, x_remb s).
Proof.
  intros HR KN ss rs NE (I1 & I2 & _). rewrite poll_packet_finish. destruct (choose ex s now) as [[s1 on]| |] eqn:CH; cbn [bind fst snd]; try discriminate.
  pose proof (choose_stats _ _ _ _ _ CH) as (SD & CS). unfold side in SD.
  destruct on as [[n pad]|].
  2:{ intros [= <- <- <-]. unfold yout, media_out, packets, octets, clock_after, zlen. cbn [flat_map app filter fold_right length]. destruct CS. repeat (split; [first [lia|congruence]|]). congruence. }
  intro F. pose proof (finish_stats _ _ _ _ _ _ _ _ _ _ _ F) as (A1 & A2 & A3).
  (* what the chosen packet is *)
  assert (RX : exists a1, R s1 tw a1 /\ a_ssrc a1 = a_ssrc a /\ a_rtx a1 = a_rtx a).
  { unfold choose in CH. destruct (poll_resend ex s now) as [[sa [n'|]]| |] eqn:E1; cbn [bind] in CH; try discriminate.
    - injection CH as <- <- <-. apply (poll_resend_ok _ _ _ _ _ _ _ HR) in E1 as (RA & _). eauto.
    - apply (poll_resend_ok _ _ _ _ _ _ _ HR) in E1 as (RA & _). destruct (poll_regular sa now) as [sb [n'|]] eqn:E2.
      + injection CH as <- <- <-. apply (poll_regular_ok _ _ _ _ _ _ RA) in E2 as (RB & _). eauto.
      + apply (poll_regular_ok _ _ _ _ _ _ RA) in E2 as (-> & _). destruct (poll_padding sa) as [[sc o3]| |] eqn:E3; cbn [bind] in CH; try discriminate.
        assert (s1 = sc) by (destruct o3; congruence). subst sc. pose proof (poll_padding_ok _ _ _ _ _ RA E3) as (pd & PB & RC & C). exists (repad a pd). auto. }
  assert (KR : match n_kind n with KReg => ssrc (k_hdr (n_pkt n)) = a_ssrc a | _ => True end /\
               (pad = false -> known ps (payload_type (k_hdr (n_pkt n))))).
  { unfold choose in CH. destruct (poll_resend ex s now) as [[sa [n'|]]| |] eqn:E1; cbn [bind] in CH; try discriminate.
    - injection CH as <- <- <-. apply (poll_resend_ok _ _ _ _ _ _ _ HR) in E1 as (RA & e & H1 & H2 & H3 & _). rewrite H3. split; [exact I|]. intros _.
      destruct (entry_pkt _ _ (r_cache _ _ _ RA _ H1)) as (w & W1 & _ & _ & W4). rewrite H2, (pkt_pt _ _ _ W4). apply KN. auto.
    - apply (poll_resend_ok _ _ _ _ _ _ _ HR) in E1 as (RA & _). destruct (poll_regular sa now) as [sb [n'|]] eqn:E2.
      + injection CH as <- <- <-. apply (poll_regular_ok _ _ _ _ _ _ RA) in E2 as (RB & w & q & qr & Q1 & Q2 & _). subst n'. cbn [n_kind n_pkt wpkt k_hdr whdr ssrc payload_type].
        split; [reflexivity|]. intros _. apply KN. right. rewrite Q1. left. reflexivity.
      + apply (poll_regular_ok _ _ _ _ _ _ RA) in E2 as (-> & _). destruct (poll_padding sa) as [[sc [n'|]]| |] eqn:E3; cbn [bind] in CH; try discriminate.
        injection CH as <- <- <-. destruct CS as (_ & _ & _ & CS). destruct (n_kind n'); [congruence|split; [exact I|discriminate]..]. }
  destruct RX as (a1 & RX & X1 & X2). destruct KR as (KR1 & KR2).
  assert (IR : forall v, x_rtx s1 = Some v -> v = rs) by (intros v V; apply I2; rewrite <- X2, <- (r_rtx _ _ _ RX); exact V).
  unfold yout, media_out, packets, octets, clock_after, zlen, on_ssrc in *.
  destruct o as [[b r]|]; cbn [flat_map app filter].
  - destruct A3 as (EP & A3). cbn [snd]. rewrite EP. destruct pad; cbn [negb fold_right length snd].
    + destruct CS as (_ & C1 & C2 & C3). rewrite A1. split; [lia|]. split; [lia|]. split; [|congruence].
      destruct (n_kind n); [congruence| |]; [destruct A3 as (_ & A3 & A4)|destruct A3 as (A3 & A4)]; apply IR in A3; (destruct (Z.eqb_spec (ssrc (rc_hdr r)) ss); [congruence|]); congruence.
    + destruct CS as (C1 & C2 & C3). rewrite A1. split; [lia|]. destruct (n_kind n) as [|k|k]; [| |destruct (C3 k eq_refl)].
      * destruct A3 as (A3 & A4 & pr & A5 & A6). rewrite KR1, I1 in A4. rewrite A4, A3, Z.eqb_refl, A5. destruct (Z.eqb_spec ss rs); [congruence|]. split; [lia|]. split; [exact A6|congruence].
      * destruct A3 as (A3 & A4 & A5). apply IR in A4. rewrite A4, A3, Z.eqb_refl. destruct (Z.eqb_spec rs ss); [congruence|]. split; [lia|]. split; congruence.
  - cbn [fold_right length]. destruct A3 as (A3 & A4). destruct pad.
    + destruct CS as (_ & C1 & C2 & _). rewrite A1. split; [lia|]. split; [lia|]. split; congruence.
    + destruct CS as (_ & _ & C3). destruct (A4 C3 (KR2 eq_refl)).
Qed.

(** * Histories *)
Definition wallpair (w : rtpwrite) : Z * Z := (w_time w, w_wall w).
Definition wr_step (l : option rtpwrite) (o : txop) : option rtpwrite := match o with XWrite w => Some w | _ => l end.
Definition cn_step (c : option (list Z)) (o : txop) : option (list Z) := match c, o with None, XTimeout _ _ cn _ => Some cn | _, _ => c end.
Definition kf_step (k : option bool) (o : txop) : option bool :=
  match o with XRtcp _ FPli => Some false | XRtcp _ FFir => Some true | XPollKf | XResetSsrc _ _ _ _ => None | _ => k end.
Definition rb_step (k : option Z) (o : txop) : option Z := match o with XRtcp _ (FRemb b) => Some b | XPollRemb | XResetSsrc _ _ _ _ => None | _ => k end.

Ltac sidefin := repeat match goal with |- _ /\ _ => split end; try reflexivity; try discriminate; try assumption;
  try (intros; discriminate); try (intros ? H; rewrite H; reflexivity); try (intros; assumption); try reflexivity.
(** one call other than a poll *)
Lemma step_side ex al s tw o s' tw' y : keeps_ssrc o -> (forall n m e p, o <> XPoll n m e p) -> txstep ex al s tw o = Ok (s', tw', y) ->
  (x_audio s = None <-> x_cname s = None) ->
  st_packets (x_stats s') = st_packets (x_stats s) /\ st_bytes (x_stats s') = st_bytes (x_stats s) /\ x_clock s' = x_clock s /\
  (forall l, x_wall s = option_map wallpair l -> x_wall s' = option_map wallpair (wr_step l o)) /\
  x_cname s' = cn_step (x_cname s) o /\ x_kf s' = kf_step (x_kf s) o /\ x_remb s' = rb_step (x_remb s) o /\
  (x_audio s' = None <-> x_cname s' = None) /\ (forall b r, y <> YPacket b r) /\
  (o = XPollKf -> y = YKf (x_kf s)) /\ (o = XPollRemb -> y = YRemb (x_remb s)).
Proof.
  intros K NP. unfold txstep. destruct o; try (exfalso; exact (NP _ _ _ _ eq_refl)); try (exfalso; exact K); clear NP K;
    (assert (CN : forall o', (forall a b c d, o' <> XTimeout a b c d) -> cn_step (x_cname s) o' = x_cname s)
      by (clear; intros o' N; unfold cn_step; destruct (x_cname s); [reflexivity|]; destruct o'; try reflexivity; destruct (N _ _ _ _ eq_refl)));
    try rewrite CN by discriminate.
  - intros [= <- <- <-] AC. cbn. sidefin.
  - unfold tx_timeout. destruct (sq_timeout _ now) as [q| |]; cbn [bind]; try discriminate. intros [= <- <- <-] AC.
    destruct (x_audio s) as [au|] eqn:A.
    + cbn. destruct (x_cname s) eqn:C; [|destruct AC as [_ AC]; discriminate (AC eq_refl)]. rewrite A. sidefin.
    + cbn. destruct (x_cname s) eqn:C; [destruct AC as [AC _]; discriminate (AC eq_refl)|]. sidefin. split; discriminate.
  - intros [= <- <- <-] AC. destruct f; cbn [handle_rtcp]; try (unfold handle_nack; destruct (last_cached _));
      try (destruct (x_rtx s) as [?|]; [destruct (_ =? _)|destruct (_ =? _)]); cbn; sidefin.
  - intros [= <- <- <-] AC. unfold generate_padding. destruct (padding_enabled s); cbn; sidefin.
  - unfold queue_state. destruct (sq_snapshot _ now) as [[q sn]| |]; cbn [bind]; try discriminate. intros [= <- <- <-] AC.
    cbn -[padding_enabled]. sidefin.
  - unfold create_sr. destruct (current_rtp_time s now) as [ot| |]; cbn [bind]; try discriminate. intros [= <- <- <-] AC. cbn. sidefin.
  - intros [= <- <- <-] AC. cbn. sidefin.
  - intros [= <- <- <-] AC. cbn. sidefin.
  - intros [= <- <- <-] AC. cbn. sidefin.
  - intros [= <- <- <-] AC. unfold set_rtx_cache. destruct cap; cbn; sidefin.
  - intros [= <- <- <-] AC. cbn. sidefin.
  - intros [= <- <- <-] AC. cbn. sidefin.
Qed.

Lemma txrun_snoc ex al ops o : forall s tw s' tw' ys, txrun ex al s tw (ops ++ [o]) = Ok (s', tw', ys) ->
  exists s1 tw1 ys1 y, txrun ex al s tw ops = Ok (s1, tw1, ys1) /\ txstep ex al s1 tw1 o = Ok (s', tw', y) /\ ys = ys1 ++ [y].
Proof.
  induction ops as [|x ops IH]; intros s tw s' tw' ys; cbn [app txrun].
  - destruct (txstep ex al s tw o) as [[[s1 t1] y]| |] eqn:S; cbn [bind fst snd]; try discriminate. intros [= <- <- <-]. exists s, tw, [], y. auto.
  - destruct (txstep ex al s tw x) as [[[s1 t1] y]| |] eqn:S; cbn [bind fst snd]; try discriminate.
    destruct (txrun ex al s1 t1 (ops ++ [o])) as [[[s2 t2] ys2]| |] eqn:T; cbn [bind fst snd]; try discriminate. intros [= <- <- <-].
    destruct (IH _ _ _ _ _ T) as (s3 & t3 & ys3 & y3 & A & B & ->). exists s3, t3, (y :: ys3), y3. rewrite A. auto.
Qed.
Lemma txrun_len ex al ops : forall s tw s' tw' ys, txrun ex al s tw ops = Ok (s', tw', ys) -> length ys = length ops.
Proof.
  induction ops as [|x ops IH]; intros s tw s' tw' ys; cbn [txrun]; [intros [= _ _ <-]; reflexivity|].
  destruct (txstep ex al s tw x) as [[[s1 t1] y]| |] eqn:S; cbn [bind fst snd]; try discriminate.
  destruct (txrun ex al s1 t1 ops) as [[[s2 t2] ys2]| |] eqn:T; cbn [bind fst snd]; try discriminate. intros [= _ _ <-]. cbn. f_equal. eapply IH; eauto.
Qed.

Lemma poll_side ex s now m tw ps s' tw' o : poll_packet ex s now m tw ps = Ok (s', tw', o) ->
  (x_wall s', x_cname s', x_audio s', x_kf s', x_remb s') = (x_wall s, x_cname s, x_audio s, x_kf s, x_remb s).
Proof.
  rewrite poll_packet_finish. destruct (choose ex s now) as [[s1 on]| |] eqn:CH; cbn [bind fst snd]; try discriminate.
  pose proof (choose_stats _ _ _ _ _ CH) as (SD & _). unfold side in SD.
  destruct on as [[n pad]|].
  - intro F. pose proof (finish_stats _ _ _ _ _ _ _ _ _ _ _ F) as (_ & A & _). congruence.
  - intros [= <- _ _]. congruence.
Qed.
Definition AC (s : tx) : Prop := x_audio s = None <-> x_cname s = None.
Lemma req_step ex al s tw o s' tw' y : AC s -> txstep ex al s tw o = Ok (s', tw', y) ->
  AC s' /\ x_kf s' = kf_step (x_kf s) o /\ x_remb s' = rb_step (x_remb s) o /\
  (o = XPollKf -> y = YKf (x_kf s)) /\ (o = XPollRemb -> y = YRemb (x_remb s)).
Proof.
  intros A S. destruct o.
  3:{ unfold txstep in S. destruct (poll_packet _ _ _ _ _ _) as [[[s1 t1] p]| |] eqn:P; cbn [bind fst snd] in S; try discriminate. injection S as <- _ _.
      pose proof (poll_side _ _ _ _ _ _ _ _ _ P) as E. unfold AC in *. injection E as E1 E2 E3 E4 E5. rewrite E2, E3. cbn. repeat split; try apply A; try assumption; discriminate. }
  13:{ unfold txstep in S. injection S as <- _ _. cbn. repeat split; try apply A; discriminate. }
  all: destruct (fun K N => step_side _ _ _ _ _ _ _ _ K N S A) as (_ & _ & _ & _ & _ & B & C & D & _ & E & F); [exact I|discriminate|]; repeat (split; [assumption|]); assumption.
Qed.
Lemma run_req ex al ops : forall s tw s' tw' ys, AC s -> txrun ex al s tw ops = Ok (s', tw', ys) ->
  AC s' /\ x_kf s' = fold_left kf_step ops (x_kf s) /\ x_remb s' = fold_left rb_step ops (x_remb s).
Proof.
  induction ops as [|x ops IH]; intros s tw s' tw' ys A; cbn [txrun fold_left]; [intros [= <- _ _]; auto|].
  destruct (txstep ex al s tw x) as [[[s1 t1] y]| |] eqn:S; cbn [bind fst snd]; try discriminate.
  destruct (txrun ex al s1 t1 ops) as [[[s2 t2] ys2]| |] eqn:T; cbn [bind fst snd]; try discriminate. intros [= <- _ _].
  destruct (req_step _ _ _ _ _ _ _ _ A S) as (A1 & B & C & _). rewrite <- B, <- C. eapply IH; eauto.
Qed.

Lemma media_out_cons y ys : media_out (y :: ys) = media_out [y] ++ media_out ys.
Proof. unfold media_out. rewrite packets_cons, filter_app. reflexivity. Qed.
Lemma octets_app rs a b : octets rs (a ++ b) = octets rs a + octets rs b.
Proof. induction a as [|x a IH]; cbn [app octets fold_right]; [reflexivity|]. fold (octets rs (a ++ b)). fold (octets rs a). lia. Qed.

Lemma run_stats ex al ss rs (NE : rs <> ss) ws ops : forall s tw a s' tw' ys l, R s tw a -> Id ss rs a -> FW ws a -> AC s -> Forall op_ok ops -> Forall keeps_ssrc ops ->
  (forall w, In (XWrite w) ops -> In w ws) -> (forall now m en ps w, In (XPoll now m en ps) ops -> In w ws -> known ps (w_pt w)) ->
  x_wall s = option_map wallpair l -> txrun ex al s tw ops = Ok (s', tw', ys) ->
  st_packets (x_stats s') = st_packets (x_stats s) + zlen (media_out ys) /\
  st_bytes (x_stats s') = st_bytes (x_stats s) + octets rs (media_out ys) /\
  x_clock s' = fold_left (clock_after ss) (combine ops ys) (x_clock s) /\
  x_wall s' = option_map wallpair (fold_left wr_step ops l) /\
  x_cname s' = fold_left cn_step ops (x_cname s) /\ x_ssrc s' = ss.
Proof.
  induction ops as [|o ops IH]; intros s tw a s' tw' ys l HR HI HF HA OK KS W P EW; cbn [txrun fold_left].
  - intros [= <- <- <-]. cbn [media_out packets flat_map filter combine fold_left octets fold_right]. rewrite (r_ssrc _ _ _ HR). destruct HI as (HI & _). change (zlen (media_out [])) with 0. repeat split; auto; cbn; lia.
  - inversion OK as [|? ? O1 O2]; subst. inversion KS as [|? ? K1 K2]; subst.
    destruct (txstep ex al s tw o) as [[[s1 t1] y]| |] eqn:S; cbn [bind fst snd]; try discriminate.
    destruct (txrun ex al s1 t1 ops) as [[[s2 t2] ys2]| |] eqn:T; cbn [bind fst snd]; try discriminate. intros [= <- <- <-].
    destruct (step_ok _ _ _ _ _ _ _ _ _ HR O1 S) as (a1 & S1 & R1).
    assert (HI1 : Id ss rs a1).
    { destruct (packet_dec y) as [(b & r & ->)|N]; [eapply id_effect; eauto using step_packet|eapply id_quiet; eauto]. }
    assert (HF1 : FW ws a1) by (eapply fw_step; [exact S1|exact HF|]; intros w ->; apply W; left; reflexivity).
    destruct (req_step _ _ _ _ _ _ _ _ HA S) as (HA1 & _).
    assert (ST : st_packets (x_stats s1) = st_packets (x_stats s) + zlen (media_out [y]) /\
      st_bytes (x_stats s1) = st_bytes (x_stats s) + octets rs (media_out [y]) /\ x_clock s1 = clock_after ss (x_clock s) (o, y) /\
      x_wall s1 = option_map wallpair (wr_step l o) /\ x_cname s1 = cn_step (x_cname s) o).
    { assert ((exists n m e p, o = XPoll n m e p) \/ forall n m e p, o <> XPoll n m e p) as [(n & m & e & p & ->)|NP] by (destruct o; try (right; discriminate); left; eauto).
      - unfold txstep in S. destruct (poll_packet _ _ _ _ _ _) as [[[sx tx'] px]| |] eqn:PP; cbn [bind fst snd] in S; try discriminate.
        injection S as <- _ <-. assert (y = y) by auto.
        pose proof (poll_known _ _ _ _ _ _ _ _ _ _ _ HR ltac:(intros w Hw; eapply P; [left; reflexivity|apply HF; exact Hw]) ss rs NE HI PP) as (A & B & C & D).
        change (match px with Some (b, r) => YPacket b r | None => YNone end) with (yout px). injection D as D1 D2 _ _ _.
        split; [exact A|]. split; [exact B|]. split; [exact C|]. rewrite D1, D2. split; [exact EW|]. cbn. destruct (x_cname s); reflexivity.
      - destruct (step_side _ _ _ _ _ _ _ _ K1 NP S HA) as (A & B & C & D & E & _ & _ & _ & Q & _).
        assert (media_out [y] = []) as -> by (unfold media_out; rewrite (not_packet _ Q); reflexivity).
        split; [rewrite A, zlen_nil; lia|]. split; [rewrite B; cbn; lia|]. split; [|auto]. rewrite C. unfold clock_after.
        destruct o; try reflexivity. destruct (NP _ _ _ _ eq_refl). }
    destruct ST as (A & B & C & D & E).
    destruct (IH _ _ _ _ _ _ _ R1 HI1 HF1 HA1 O2 K2 ltac:(intros w Hw; apply W; right; exact Hw) ltac:(intros; eapply P; [right; eassumption|assumption]) D T) as (F & G & H & I & J & L).
    rewrite media_out_cons, zlen_app, octets_app. cbn [combine fold_left]. rewrite <- C, <- E. repeat split; auto; lia.
Qed.

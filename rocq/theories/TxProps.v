(** C43: what an outgoing RTP stream puts on the wire. *)
From Coq Require Import Sorted.
From Verif Require Import Base BaseFacts MtimeModel SendQueueModel EvictModel EvictSpec EvictProps Vp8Model ExtModel HeaderModel NackModel
  TxModel TxSpec TxProofs TxProofs2 TxProofs3 TxProofs4.

(** Start of a stream: SSRC [ss], RTX SSRC [rtx], MID, RID; the calls [ops] give the outputs [ys]. *)
Definition C43_run (ex : Z -> Z -> Z -> bool) (al ss : Z) (rtx : option Z) (mid_ : list Z) (rid_ : option (list Z))
    (mtu q0 qr lst tw : Z) (ops : list txop) (ys : list txout) : Prop :=
  exists s' tw', txrun ex al (tx_new ss rtx mid_ rid_ mtu al q0 qr lst) tw ops = Ok (s', tw', ys).

(** Every history is one the automaton of TxSpec allows: which packets may come out, with exactly which
    header fields, extension values, payload bytes and receipt. *)
Theorem C43_stream_refines_automaton : forall ex al ss rtx mid_ rid_ mtu q0 qr lst tw ops ys,
  Forall op_ok ops -> C43_run ex al ss rtx mid_ rid_ mtu q0 qr lst tw ops ys ->
  exists a, srun (spec0 ss rtx mid_ rid_ qr tw) ops ys a.
Proof.
  intros ex al ss rtx mid_ rid_ mtu q0 qr lst tw ops ys OK (s' & tw' & T).
  destruct (run_ok _ _ _ _ _ _ _ _ _ (R_new ss rtx mid_ rid_ mtu al q0 qr lst tw) OK T) as (a & S & _). eauto.
Qed.
Print Assumptions C43_stream_refines_automaton.

Section C43.
Variables (ex : Z -> Z -> Z -> bool) (al ss rs : Z) (mid_ : list Z) (rid_ : option (list Z)) (mtu q0 qr lst tw : Z)
  (ops : list txop) (ys : list txout).
Hypotheses (NE : rs <> ss) (OK : Forall op_ok ops) (T : C43_run ex al ss (Some rs) mid_ rid_ mtu q0 qr lst tw ops ys).

(** Media packets leave in the order written, each at most once, nothing else on the main SSRC. *)
Theorem C43_media_in_order : Forall keeps_ssrc ops ->
  sublist (map out_key (filter (on_ssrc ss) (packets ys))) (map write_key (writes ops)).
Proof.
  intro K. destruct T as (s' & tw' & T'). destruct (run_ok _ _ _ _ _ _ _ _ _ (R_new ss (Some rs) mid_ rid_ mtu al q0 qr lst tw) OK T') as (a & S & _).
  exact (run_main ss rs NE ops _ _ _ S K OK (Id_new ss rs mid_ rid_ qr tw)).
Qed.

(** While the payload types stay the same and nothing is reset, the media packets out are exactly a
    prefix of the packets written whose payload type the peer has, payload included. *)
Theorem C43_media_is_a_prefix : forall ps, Forall (steady ps) ops ->
  exists ws rest, ws ++ rest = filter (sendable ps) (writes ops) /\ Forall2 carries (filter (on_ssrc ss) (packets ys)) ws.
Proof.
  intros ps ST. destruct T as (s' & tw' & T'). destruct (run_ok _ _ _ _ _ _ _ _ _ (R_new ss (Some rs) mid_ rid_ mtu al q0 qr lst tw) OK T') as (a & S & _).
  destruct (run_media ss rs ps NE ops _ _ _ S (Id_new ss rs mid_ rid_ qr tw) ST OK) as (ws & W1 & W2). eauto.
Qed.

(** Every packet on the RTX SSRC has a fresh, larger number there. *)
Theorem C43_rtx_numbers_increase : Forall keeps_ssrc ops ->
  let l := map (fun p => rc_seq (snd p)) (filter (on_ssrc rs) (packets ys)) in
  StronglySorted Z.lt l /\ Forall (fun n => qr <= n) l.
Proof.
  intro K. destruct T as (s' & tw' & T'). destruct (run_ok _ _ _ _ _ _ _ _ _ (R_new ss (Some rs) mid_ rid_ mtu al q0 qr lst tw) OK T') as (a & S & _).
  exact (run_rtx ss rs NE ops _ _ _ S K OK (Id_new ss rs mid_ rid_ qr tw)).
Qed.

(** Retransmissions happen only for numbers the peer asked for, in that order and no more often. *)
Theorem C43_resends_only_what_was_asked : Forall keeps_ssrc ops -> sublist (resent rs ys) (nacked ops).
Proof.
  intro K. destruct T as (s' & tw' & T'). destruct (run_ok _ _ _ _ _ _ _ _ _ (R_new ss (Some rs) mid_ rid_ mtu al q0 qr lst tw) OK T') as (a & S & _).
  exact (run_resent ss rs NE ops _ _ _ S K OK (Id_new ss rs mid_ rid_ qr tw)).
Qed.

(** Each packet on the RTX SSRC is blank padding, or repeats a nackable packet that went out before on
    the main SSRC: original number, same payload, time and marker. *)
Theorem C43_rtx_repeats_an_earlier_packet : Forall keeps_ssrc ops ->
  forall l1 p l2, packets ys = l1 ++ p :: l2 -> on_ssrc rs p = true ->
  blank p \/ exists w p0, In w (writes ops) /\ w_nack w = true /\ repeats p w /\ In p0 l1 /\ on_ssrc ss p0 = true /\
    out_key p0 = write_key w /\ body_of w (payload_of p0).
Proof.
  intros K l1 p l2 E1 E2. destruct T as (s' & tw' & T'). destruct (run_ok _ _ _ _ _ _ _ _ _ (R_new ss (Some rs) mid_ rid_ mtu al q0 qr lst tw) OK T') as (a & S & _).
  destruct (run_repeats ss rs NE ops _ _ _ S K OK (Id_new ss rs mid_ rid_ qr tw) l1 p l2 E1 E2) as [B|(w & W1 & W2 & [[]|(W3 & p0 & W4 & W5 & W6 & W7)])]; [left; exact B|].
  right. exists w, p0. auto 10.
Qed.

(** With transport-wide numbering on, the packets of all three kinds are numbered consecutively. *)
Theorem C43_transport_numbers_consecutive : (forall o, In o ops -> numbered o) ->
  transport_numbers ys = counting tw (length (packets ys)).
Proof.
  intro N. destruct T as (s' & tw' & T'). destruct (run_ok _ _ _ _ _ _ _ _ _ (R_new ss (Some rs) mid_ rid_ mtu al q0 qr lst tw) OK T') as (a & S & _).
  exact (proj1 (run_twcc ops _ _ _ S N)).
Qed.
End C43.
Print Assumptions C43_media_in_order.
Print Assumptions C43_media_is_a_prefix.
Print Assumptions C43_rtx_numbers_increase.
Print Assumptions C43_resends_only_what_was_asked.
Print Assumptions C43_rtx_repeats_an_earlier_packet.
Print Assumptions C43_transport_numbers_consecutive.

(** Padding.  After the last request ([pre] made them all, before any padding went out), a padding
    packet goes out only while less than the amount requested has gone out. *)
Theorem C43_padding_bounded : forall ex al ss rs mid_ rid_ mtu q0 qr lst tw pre rest s1 tw1 ys1 s2 tw2 ys2,
  rs <> ss -> Forall op_ok (pre ++ rest) -> Forall keeps_ssrc (pre ++ rest) -> (forall n, ~ In (XPad n) rest) ->
  txrun ex al (tx_new ss (Some rs) mid_ rid_ mtu al q0 qr lst) tw pre = Ok (s1, tw1, ys1) ->
  txrun ex al s1 tw1 rest = Ok (s2, tw2, ys2) ->
  forall l1 p l2, packets ys2 = l1 ++ p :: l2 -> rc_pad (snd p) = true -> 0 <= padding_sent l1 < requested pre.
Proof.
  intros ex al ss rs mid_ rid_ mtu q0 qr lst tw pre rest s1 tw1 ys1 s2 tw2 ys2 NE OK KS NP T1 T2 l1 p l2 E1 E2.
  apply Forall_app in OK as [OK1 OK2]. apply Forall_app in KS as [KS1 KS2].
  destruct (run_ok _ _ _ _ _ _ _ _ _ (R_new ss (Some rs) mid_ rid_ mtu al q0 qr lst tw) OK1 T1) as (a & S & HR).
  destruct (run_ok _ _ _ _ _ _ _ _ _ HR OK2 T2) as (b & S2 & _).
  assert (Id ss rs a /\ a_pad a <= requested pre) as [HI HP].
  { pose proof (Id_new ss rs mid_ rid_ qr tw) as I0. assert (a_pad (spec0 ss (Some rs) mid_ rid_ qr tw) = 0) as P0 by reflexivity.
    enough (forall ops a0 ys a1, srun a0 ops ys a1 -> Forall op_ok ops -> Forall keeps_ssrc ops -> Id ss rs a0 -> Id ss rs a1 /\ a_pad a1 <= a_pad a0 + requested ops) as X.
    { destruct (X _ _ _ _ S OK1 KS1 I0) as [X1 X2]. split; [exact X1|lia]. }
    clear - NE. induction ops as [|o ops IH]; intros a0 ys a1 S OK KS HI; inversion S as [|? ? y a2 ? ys1 ? S1 S2]; subst; [split; [exact HI|cbn; lia]|].
    inversion OK; subst. inversion KS; subst.
    assert (requested (o :: ops) = requested [o] + requested ops) as -> by (unfold requested; cbn [fold_right]; destruct o; lia).
    destruct (packet_dec y) as [(b & r & ->)|N].
    - pose proof (step_packet _ _ _ _ _ S1) as E. assert (Id ss rs a2) as I2 by (eapply id_effect; eauto).
      destruct (IH _ _ _ S2 ltac:(assumption) ltac:(assumption) I2) as [X1 X2]. split; [exact X1|].
      destruct (step_poll _ _ _ _ _ S1) as (? & ? & ? & ? & ->). cbn [requested fold_right].
      assert (a_pad a2 <= a_pad a0); [|lia]. destruct HI as (_ & _ & HI).
      inversion E as [| ? ? ? ? ? ? ? ? ? ? P|]; subst; cbn [after a_pad]; try lia. destruct (rc_pad r); lia.
    - assert (Id ss rs a2) as I2 by (eapply id_quiet; eauto).
      destruct (IH _ _ _ S2 ltac:(assumption) ltac:(assumption) I2) as [X1 X2]. split; [exact X1|]. destruct HI as (_ & _ & HI).
      destruct (step_quiet _ _ _ _ S1 ltac:(assumption) N ltac:(assumption) HI) as (_ & _ & _ & _ & _ & _ & P & _). lia. }
  pose proof (run_padding ss rs NE rest _ _ _ S2 KS2 OK2 HI NP l1 p l2 E1 E2). lia.
Qed.
Print Assumptions C43_padding_bounded.

(** Delivery.  Everything written before a timeout is out, in order, once at least as many polls followed
    as packets were written and numbers were NACKed altogether; only packets with a payload type the
    peer does not have are left out. *)
Theorem C43_media_is_delivered : forall ex al ss rs mid_ rid_ mtu q0 qr lst tw ps pre now au cn f post ys,
  rs <> ss -> let ops := pre ++ XTimeout now au cn f :: post in
  Forall op_ok ops -> Forall (steady ps) ops ->
  zlen (writes pre) + zlen (nacked ops) <= zlen (filter is_poll post) ->
  C43_run ex al ss (Some rs) mid_ rid_ mtu q0 qr lst tw ops ys ->
  exists p1 p2, filter (on_ssrc ss) (packets ys) = p1 ++ p2 /\ Forall2 carries p1 (filter (sendable ps) (writes pre)).
Proof.
  intros ex al ss rs mid_ rid_ mtu q0 qr lst tw ps pre now au cn f post ys NE ops OK ST L (s' & tw' & T).
  destruct (run_ok _ _ _ _ _ _ _ _ _ (R_new ss (Some rs) mid_ rid_ mtu al q0 qr lst tw) OK T) as (a & S & _). clear T.
  assert (forall l1 l2 a0 ys a2, srun a0 (l1 ++ l2) ys a2 -> exists y1 y2 a1, ys = y1 ++ y2 /\ srun a0 l1 y1 a1 /\ srun a1 l2 y2 a2) as SPLIT.
  { clear. induction l1 as [|o l1 IH]; intros l2 a0 ys a2 S; cbn [app] in S.
    - exists [], ys, a0. split; [reflexivity|]. split; [constructor|exact S].
    - inversion S as [|? ? y b ? ys1 ? S1 S2]; subst. destruct (IH _ _ _ _ S2) as (y1 & y2 & a1 & -> & S3 & S4).
      exists (y :: y1), y2, a1. split; [reflexivity|]. split; [econstructor; eassumption|exact S4]. }
  destruct (SPLIT _ _ _ _ _ S) as (y1 & y2 & a1 & -> & Sp & Sq). unfold ops in OK, ST.
  apply Forall_app in OK as [OK1 OK2]. apply Forall_app in ST as [ST1 ST2]. inversion OK2 as [|? ? OT OK3]; subst. inversion ST2 as [|? ? TT ST3]; subst.
  pose proof (Id_new ss rs mid_ rid_ qr tw) as I0.
  destruct (run_media ss rs ps NE _ _ _ _ Sp I0 ST1 OK1) as (ws & W1 & W2). cbn [spec0 a_queue map app] in W2.
  assert (Forall keeps_ssrc pre) as KS by (eapply Forall_impl; [|exact ST1]; intros o Ho; destruct o; try exact I; destruct Ho).
  pose proof (run_asked ss rs NE pre _ _ _ Sp KS OK1 I0) as LA. cbn [spec0 a_asked length] in LA.
  assert (Id ss rs a1 /\ KN ps a1 /\ (length (a_queue a1) <= length (writes pre))%nat) as (I1 & K1 & LQ).
  { assert (KN ps (spec0 ss (Some rs) mid_ rid_ qr tw)) as K0 by (intros w []).
    assert (length (a_queue (spec0 ss (Some rs) mid_ rid_ qr tw)) = 0)%nat as Q0 by reflexivity.
    enough (Id ss rs a1 /\ KN ps a1 /\ (length (a_queue a1) <= length (a_queue (spec0 ss (Some rs) mid_ rid_ qr tw)) + length (writes pre))%nat) as X by (rewrite Q0 in X; exact X).
    clear - Sp I0 K0 ST1 OK1 NE. revert y1 a1 Sp I0 K0. generalize (spec0 ss (Some rs) mid_ rid_ qr tw).
    induction pre as [|o pre IH]; intros b y1 a1 Sp I0 K0; inversion Sp as [|? ? y b1 ? ys1 ? S1 S2]; subst; [split; [exact I0|split; [exact K0|cbn; lia]]|].
    inversion ST1; subst. inversion OK1; subst.
    assert (Id ss rs b1) as IB by (eapply (id_step ss rs ps); eauto).
    assert (KN ps b1) as KB by (eapply kn_step; eauto).
    destruct (IH ltac:(assumption) ltac:(assumption) _ _ _ S2 IB KB) as (X1 & X2 & X3). split; [exact X1|]. split; [exact X2|].
    rewrite writes_cons, app_length.
    destruct (step_media ss rs ps NE _ _ _ _ I0 ltac:(eassumption) ltac:(eassumption) S1) as [(E1 & E2)|(w & q & E1 & E2 & _)].
    - apply (f_equal (@length _)) in E2. rewrite app_length, !map_length in E2. lia.
    - rewrite E1. subst q. cbn [length]. lia. }
  inversion Sq as [|? ? y a2 ? ys3 ? St Sr]; subst.
  assert (y = YNone /\ a2 = after a1 (map (fun x => (fst x, true)) (a_queue a1)) (a_sent a1) (a_asked a1) (a_next a1) (a_pad a1) (a_twcc a1)) as [-> ->].
  { inversion St; subst; [auto|contradiction]. }
  assert (Id ss rs (after a1 (map (fun x => (fst x, true)) (a_queue a1)) (a_sent a1) (a_asked a1) (a_next a1) (a_pad a1) (a_twcc a1))) as I2 by exact I1.
  assert (nacked ops = nacked pre ++ nacked post) as EN by (unfold ops, nacked; rewrite flat_map_app; reflexivity).
  rewrite EN, zlen_app in L. unfold zlen in L.
  destruct (run_flush ss rs ps NE _ _ _ _ (map fst (a_queue a1)) [] Sr I2 K1 ST3 OK3) as (p1 & p2 & E1 & E2).
  { cbn [after a_queue]. rewrite map_map, app_nil_r. reflexivity. }
  { cbn [after a_asked]. rewrite map_length. lia. }
  exists (filter (on_ssrc ss) (packets y1) ++ p1), p2. split.
  - unfold packets. rewrite flat_map_app, filter_app. fold (packets y1). change (flat_map _ (YNone :: ys3)) with (packets ys3).
    rewrite E1, app_assoc. reflexivity.
  - rewrite <- W2. apply Forall2_app; assumption.
Qed.
Print Assumptions C43_media_is_delivered.

(** A NACK is answered.  The cache holds [mx] packets of age at most [ag]; all packets are nackable and
    every payload type has an RTX type; the cap on the share of retransmissions is never exceeded.  Then a
    NACK for one of the last max(10, mx) media packets (at most 32768, so that 16 bits identify it) that
    was not older than [ag] when the last media packet left is answered by a retransmission, once the
    stream was polled as often as numbers were NACKed altogether. *)
Theorem C43_nack_is_answered : forall ex ss rs ps mid_ rid_ mw al q0 qr lst mx ag cap tw ops s1 tw1 ys n0 l0 pl tl i pk t now es ops2 s2 tw2 ys2,
  (forall c a b, ex c a b = false) -> rs <> ss -> (forall pr, In pr ps -> p_rtx pr <> None) ->
  Forall op_ok ops -> Forall (steady ps) ops -> (forall w, In w (writes ops) -> w_nack w = true) ->
  txrun ex al (set_rtx_cache (tx_new ss (Some rs) mid_ rid_ mw al q0 qr lst) mx ag cap al) tw ops = Ok (s1, tw1, ys) ->
  let l := media_sent ss ops ys in
  0 < ag -> numbered_from n0 l -> in_order al l -> l = l0 ++ [(pl, tl)] ->
  nth_error l i = Some (pk, t) -> zlen l - Z.of_nat i <= Z.min (Z.max 10 mx) 32768 -> tl - t <= ag ->
  op_ok (XRtcp now (FNack es)) -> In (pseq pk mod U16) (flat_map listed es) ->
  Forall op_ok ops2 -> Forall (steady ps) ops2 ->
  zlen (nacked ops) + zlen (flat_map listed es) <= zlen (filter is_poll ops2) ->
  txrun ex al s1 tw1 (XRtcp now (FNack es) :: ops2) = Ok (s2, tw2, ys2) ->
  In (pseq pk mod U16) (resent rs ys2).
Proof.
  intros ex ss rs ps mid_ rid_ mw al q0 qr lst mx ag cap tw ops s1 tw1 ys n0 l0 pl tl i pk t now es ops2 s2 tw2 ys2 EX NE PR OK ST NW T l.
  intros. eapply (nack_answered ex EX ss rs NE ps PR mid_ rid_ mw al q0 qr lst mx ag cap tw ops s1 tw1 ys n0 l); eauto.
Qed.
Print Assumptions C43_nack_is_answered.

(** * A concrete stream meets the hypotheses *)
Definition C43_map : extmap := Some AbsoluteSendTime :: rep None 15.
Definition C43_ps : list param := [mkPar 96 (Some 97) 90000].
Definition C43_w (q : Z) : rtpwrite := mkW 96 q (3000 * q) (1000000 * q) (q =? 2) ev0 true [q; 7; 8] 0 (rep 0 15) None.
Definition C43_never (c r t : Z) : bool := false.
Definition C43_poll (now : Z) : txop := XPoll now C43_map true C43_ps.
Definition C43_ops : list txop :=
  [XWrite (C43_w 1); XWrite (C43_w 2); XTimeout 1000000 false [99] (Some 96); C43_poll 1000000; C43_poll 1000000;
   XRtcp 2000000 (FNack [mkEntry 1 0]); C43_poll 2000000; XPad 100; C43_poll 2000000; C43_poll 2000000].
Definition C43_ys (rtx : option Z) (mtu : Z) (ops : list txop) : res (list txout) :=
  match txrun C43_never 0 (tx_new 10 rtx [109] None mtu 0 0 5000 0) 70 ops with Ok (_, _, ys) => Ok ys | Err => Err | Panic => Panic end.
Definition C43_summary (ys : list txout) : list (Z * Z * Z * bool * list Z) :=
  map (fun p => let h := rc_hdr (snd p) in (ssrc h, payload_type h, rc_seq (snd p), rc_pad (snd p), payload_of p)) (packets ys).
Example C43_example : exists ys, C43_ys (Some 11) 1350 C43_ops = Ok ys /\
  C43_summary ys = [(10, 96, 1, false, [1; 7; 8]); (10, 96, 2, false, [2; 7; 8]); (11, 97, 5000, false, [0; 1; 1; 7; 8]);
                    (11, 97, 5001, true, [0; 2; 2; 7; 8]); (11, 97, 5002, true, [0; 2; 2; 7; 8])] /\
  transport_numbers ys = counting 70 5 /\ resent 11 ys = [1] /\ Forall op_ok C43_ops /\ Forall (steady C43_ps) C43_ops.
Proof.
  eexists. split; [vm_compute; reflexivity|]. split; [vm_compute; reflexivity|]. split; [vm_compute; reflexivity|]. split; [vm_compute; reflexivity|].
  split; repeat constructor; cbn; unfold U64, U16; lia.
Qed.
Example C43_nack_example : let l := media_sent 10 (firstn 5 C43_ops) (match C43_ys (Some 11) 1350 (firstn 5 C43_ops) with Ok ys => ys | _ => [] end) in
  l = [(mkPkt 1 3 tt, 1000000); (mkPkt 2 3 tt, 1000000)] /\ numbered_from 1 l /\ in_order 0 l.
Proof.
  assert (media_sent 10 (firstn 5 C43_ops) (match C43_ys (Some 11) 1350 (firstn 5 C43_ops) with Ok ys => ys | _ => [] end) =
    [(mkPkt 1 3 tt, 1000000); (mkPkt 2 3 tt, 1000000)]) as E by (vm_compute; reflexivity).
  cbv zeta. rewrite E. split; [reflexivity|]. split; [|split].
  - intros i pk t H. destruct i as [|[|[|i]]]; cbn [nth_error] in H; inversion H; reflexivity.
  - intros i pk t H. destruct i as [|[|[|i]]]; cbn [nth_error] in H; inversion H; lia.
  - intros i j x t y u H1 H2 L. destruct i as [|[|[|i]]]; destruct j as [|[|[|j]]]; cbn [nth_error] in H1, H2; inversion H1; inversion H2; lia.
Qed.

(** * Where it breaks *)
(** A stream declared without an RTX SSRC whose payload type has RTX: a NACK from the peer panics. *)
Theorem C43_nack_without_rtx_ssrc_refuted : exists ops, Forall op_ok ops /\
  (exists w, In (XWrite w) ops) /\ C43_ys None 1350 ops = Panic.
Proof.
  exists (firstn 7 C43_ops). split; [repeat constructor; cbn; unfold U64, U16; lia|]. split; [exists (C43_w 1); left; reflexivity|].
  vm_compute. reflexivity.
Qed.
Print Assumptions C43_nack_without_rtx_ssrc_refuted.
(** The documented MTU range has no upper end, but with an MTU over 2105 a padding request over 1012 bytes panics. *)
Theorem C43_padding_with_large_mtu_refuted : exists ops, Forall op_ok ops /\ In (XPad 1013) ops /\
  C43_ys (Some 11) 2105 ops = Panic /\ exists ys, C43_ys (Some 11) 2104 ops = Ok ys.
Proof.
  exists [XWrite (C43_w 1); XTimeout 1000000 false [99] (Some 96); C43_poll 1000000; XPad 1013; C43_poll 1000000].
  split; [repeat constructor; cbn; unfold U64, U16; lia|]. split; [cbn; auto 10|]. split; [vm_compute; reflexivity|].
  eexists. vm_compute. reflexivity.
Qed.
Print Assumptions C43_padding_with_large_mtu_refuted.
(** Every packet carries the MID, so the peer can always place it.  (The code means to stop once the peer
    reports the SSRC; with an RTX SSRC it never does.) *)
Theorem C43_mid_on_every_packet : forall ex al ss rs mid_ rid_ mtu q0 qr lst tw ops ys,
  rs <> ss -> Forall op_ok ops -> Forall keeps_ssrc ops -> C43_run ex al ss (Some rs) mid_ rid_ mtu q0 qr lst tw ops ys ->
  forall p, In p (packets ys) -> mid (ext_vals (rc_hdr (snd p))) = Some mid_.
Proof.
  intros ex al ss rs mid_ rid_ mtu q0 qr lst tw ops ys NE OK KS (s' & tw' & T) p Hp.
  destruct (run_ok _ _ _ _ _ _ _ _ _ (R_new ss (Some rs) mid_ rid_ mtu al q0 qr lst tw) OK T) as (a & S & _). clear T.
  assert (let a0 := spec0 ss (Some rs) mid_ rid_ qr tw in a_mid a0 = mid_ /\ a_acked a0 = false /\ a_rtx a0 = Some rs) as A0 by (cbn; auto).
  cbv zeta in A0. revert A0. generalize dependent (spec0 ss (Some rs) mid_ rid_ qr tw). clear OK. induction ops as [|o ops IH] in ys, Hp, KS |- *; intros a0 S (A1 & A2 & A3);
    inversion S as [|? ? y a1 ? ys1 ? S1 S2]; subst; [destruct Hp|].
  inversion KS as [|? ? KS1 KS2]; subst. rewrite packets_cons in Hp.
  assert (a_mid a1 = a_mid a0 /\ a_acked a1 = a_acked a0 /\ a_rtx a1 = a_rtx a0) as (B1 & B2 & B3).
  { inversion S1 as [| |now m en ps' y' a2 P| | | | | | | |]; subst; try (split; [reflexivity|split; reflexivity]); [inversion P; subst; auto| |destruct KS1].
    rewrite A3. cbn [a_mid a_acked a_rtx]. rewrite orb_false_r. auto. }
  apply in_app_iff in Hp as [Hp|Hp].
  - inversion S1 as [| |now m en ps' y' a2 P| | | | | | | |? ? K1 K2]; subst; try destruct Hp as []; [|destruct y; try contradiction; destruct Hp].
    inversion P; subst; try destruct Hp as []; subst; try contradiction; cbn [snd rc_hdr main_header rtx_header blank_header ext_vals common mid ev_ids]; rewrite ?A2; reflexivity.
  - eapply (IH ys1 KS2 Hp a1 S2); rewrite ?B1, ?B2, ?B3; auto.
Qed.
Print Assumptions C43_mid_on_every_packet.

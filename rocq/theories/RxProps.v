(** C44: incoming RTP. *)
From Verif Require Import Base BaseFacts SeqModel SeqProofs NackModel RegisterModel MtimeModel ExtModel HeaderModel HeaderProofs TxModel RxModel RxReg RxSpec RxProofs RxProofs2 RxProofs3 RxProofs4 RxProofs5 RxProofs6 RxProofs7 RxProofs8.

(** C44. No sequence of allowed calls and arriving packets, whoever sends them, makes the receiving
    side panic. *)
Theorem C44_no_panic : forall mode ops, ops_fine (sess0 mode) ops -> exists x l, rxrun (sess0 mode) ops = Ok (x, l).
Proof. intros mode ops F. destruct (wf_run ops _ (wf0 mode) F) as (x & l & E & _). eauto. Qed.
Print Assumptions C44_no_panic.

(** C44. Whoever sends, every packet the application polls and every packet handed to the assembly of
    frames comes from a datagram that was fed and that SRTP accepted: it is that datagram's packet, or
    the packet inside it when it is a repair packet; its index has the sequence number as low bits;
    it carries the arrival time of that datagram. *)
Theorem C44_only_authentic_packets : forall mode ops x l, ops_fine (sess0 mode) ops -> rxrun (sess0 mode) ops = Ok (x, l) ->
  forall p, In p (polled l) \/ In p (assembled l) -> from_ops ops p.
Proof.
  intros mode ops x l F R p. destruct (run_taken ops _ _ _ (wf0 mode) F R) as [A B]. intros [H|H]; [|auto]. destruct (A p H) as [Z|Z]; [discriminate Z|exact Z].
Qed.
Print Assumptions C44_only_authentic_packets.

(** C44. If every SSRC and payload type is either for media or for repair, no packet (SSRC and
    index) is polled twice: not when the network duplicates or replays it, not when it also arrives as
    a repair, not when streams are declared, removed or reset in between. *)
Theorem C44_at_most_once : forall isrtx rtxpt mode ops x l, isrtx 0 = false ->
  ops_fine (sess0 mode) ops -> Forall (op_class isrtx rtxpt) ops -> rxrun (sess0 mode) ops = Ok (x, l) ->
  NoDup (map pid (polled l)).
Proof.
  intros isrtx rtxpt mode ops x l Z F K R. exact (proj1 (run_inv isrtx rtxpt Z ops _ [] _ _ (wf0 mode) (cl0 isrtx rtxpt mode) (gh0 isrtx rtxpt mode) F K R)).
Qed.
Print Assumptions C44_at_most_once.

(** C44. The next packet of a declared stream is delivered, unchanged: its payload type is
    negotiated, no rollover counter was forced, SRTP accepts it at index [i], and [i] is above every
    index of this SSRC polled so far by less than 2^15 (below 2^16 if there is none). *)
Theorem C44_fresh_packet_delivered : forall isrtx rtxpt ops x l, isrtx 0 = false ->
  ops_fine (sess0 true) ops -> Forall (op_class isrtx rtxpt) ops -> drains ops -> rxrun (sess0 true) ops = Ok (x, l) ->
  forall now h dec s p i raw data, op_fine x (RRtp now h dec) -> pkt_class isrtx rtxpt h ->
  srtp x = true -> ssrc h <> 0 -> isrtx (ssrc h) = false ->
  aget (ssrc h) (streams x) = Some s -> s_roc s = None -> find_param (codecs x) (payload_type h) = Some p ->
  0 <= i < 2 ^ 64 -> sequence_number h = i mod 65536 -> dec i = Some raw -> unpad h raw = Ok data ->
  (forall q, In (ssrc h, q) (map pid (polled l)) -> q < i) ->
  (i < 65536 /\ (forall q, ~ In (ssrc h, q) (map pid (polled l))) \/
   exists q, In (ssrc h, q) (map pid (polled l)) /\ i < q + 32768) ->
  exists y evs pk, rxrun x [RRtp now h dec; RPollPacket] = Ok (y, [ORtp evs; OPacket (Some pk)]) /\
    q_hdr pk = h /\ q_pay pk = data /\ q_seq pk = i /\ q_at pk = now.
Proof.
  intros isrtx rtxpt ops x l Z F K DR R now h dec s p i raw data [_ HD] HC Hsr KN HK ES ROC FP Hi HS ED EU HF HW.
  destruct (run_drained isrtx rtxpt Z _ ops (le_n _) _ [] _ _ (wf0 true) (cl0 isrtx rtxpt true) (gh0 isrtx rtxpt true) eq_refl eq_refl F K DR R) as (W & C & G & P & M).
  rewrite app_nil_r in G.
  destruct (deliver_main isrtx rtxpt Z x _ now h dec s p i raw data W C G HC HD Hsr M KN HK ES ROC FP Hi HS ED EU) as (y & evs & pk & E & EP & A & B & D & T & SY).
  - intros mx EM. pose proof (gh_top _ _ _ G _ _ KN HK EM) as T. apply in_rev in T. split; [apply HF; exact T|].
    destruct HW as [[_ HW]|(q & Hq & Lq)]; [exfalso; exact (HW _ T)|]. destruct (gh_le _ _ _ G (ssrc h) q) as (_ & _ & mx' & EM' & Le); [apply in_rev in Hq; exact Hq|]. rewrite EM in EM'. inversion EM'; subst. lia.
  - intro EM. destruct HW as [[HW _]|(q & Hq & _)]; [exact HW|]. exfalso. destruct (gh_le _ _ _ G (ssrc h) q) as (_ & _ & mx' & EM' & Le); [apply in_rev in Hq; exact Hq|]. congruence.
  - assert (rtp_mode y = true) as MY. { assert (op_fine x (RRtp now h dec)) as OFI by (split; [rewrite HS; apply Z.mod_pos_bound; reflexivity|exact HD]).
      assert (rxstep x (RRtp now h dec) = Ok (y, ORtp evs)) as ST by (cbn [rxstep]; rewrite E; reflexivity). destruct (step_pending _ _ _ _ W OFI ST) as (X & _). congruence. }
    do 3 eexists. split; [|split; [exact A|split; [exact B|split; [exact D|exact T]]]]. cbn [rxrun rxstep]. rewrite E. cbn [bind]. rewrite SY, MY, EP. reflexivity.
Qed.
Print Assumptions C44_fresh_packet_delivered.

(** C44. When the session asks for number [w] of a stream with a NACK, the packet was never polled,
    and the repair packet that answers is delivered as the original: SSRC and payload type of the
    stream, number [w], and the payload without the two bytes of the number.  The repair packet is
    one whose SSRC the session maps to the stream, new on the repair side, and accepted by SRTP. *)
Theorem C44_asked_repair_delivered : forall isrtx rtxpt ops x l, isrtx 0 = false ->
  ops_fine (sess0 true) ops -> Forall (op_class isrtx rtxpt) ops -> drains ops -> rxrun (sess0 true) ops = Ok (x, l) ->
  forall now sender iva ivv y fb sd k es w, rxstep x (RTimeout now sender iva ivv) = Ok (y, OFeedback fb) ->
  In (FbNack sd k es) fb -> k <> 0 -> In w (flat_map entry_seqs16 es) ->
  exists n, n mod 65536 = w /\ ~ In (k, n) (map pid (polled l)) /\
  forall s now2 h dec m p i raw a b rest, op_fine y (RRtp now2 h dec) -> pkt_class isrtx rtxpt h ->
  srtp y = true -> isrtx (ssrc h) = true -> snd (mid_ssrc y now2 (ssrc h)) = Some (m, k) -> aget k (streams y) = Some s -> s_roc s = None ->
  find_param (codecs y) (payload_type h) = Some p ->
  (let r := match s_regx s with Some r => r | None => rnew (aget (ssrc h) (maxseq y)) end in
   i = extend_u16 (rmax_seq r) (sequence_number h) /\ raccepts r i = true) ->
  dec i = Some raw -> unpad h raw = Ok (a :: b :: rest) -> 256 * a + b = w ->
  exists z evs pk, rxrun y [RRtp now2 h dec; RPollPacket] = Ok (z, [ORtp evs; OPacket (Some pk)]) /\
    q_hdr pk = restored h k (p_pt p) w /\ q_pay pk = rest /\ q_seq pk = n /\ q_at pk = now2.
Proof.
  intros isrtx rtxpt ops x l Z F K DR R now sender iva ivv y fb sd k es w EY HFB KN HW.
  destruct (run_drained isrtx rtxpt Z _ ops (le_n _) _ [] _ _ (wf0 true) (cl0 isrtx rtxpt true) (gh0 isrtx rtxpt true) eq_refl eq_refl F K DR R) as (W & C & G & P & M). rewrite app_nil_r in G.
  destruct (inv_step isrtx rtxpt Z x (RTimeout now sender iva ivv) y _ _ W C G Logic.I Logic.I EY) as (W1 & C1 & D' & G1 & SG). cbn [step_ghost] in SG. destruct SG as (_ & -> & P1).
  destruct (step_pending _ _ _ _ W (Logic.I : op_fine x (RTimeout now sender iva ivv)) EY) as (M1 & _). rewrite M in M1.
  destruct (timeout_nack _ _ _ _ _ _ _ _ _ _ _ W EY HFB HW) as (s0 & r0 & e & n & ES0 & ER0 & EM & Hn & HR & Hw & HA).
  exists n. split; [exact Hw|]. split.
  { intro HI. apply in_rev in HI. pose proof (gh_shut _ _ _ G1 k s0 r0 n HI (aget_some_in _ _ _ ES0) ER0) as Q. congruence. }
  intros s now2 h dec m p i raw a b rest [HS HD] HC Hsr HK EMS ES ROC FP Hi ED EU EW.
  assert (s0 = s) by congruence. subst s0.
  assert (e < U64) as HE by (pose proof (sri_reg _ _ (wf_str _ W1 _ _ (aget_some_in _ _ _ ES))) as Q; rewrite ER0 in Q; cbn in Q; apply (proj2 Q); exact EM).
  destruct (deliver_repair isrtx rtxpt Z y _ now2 h dec m k s p r0 e i raw a b rest n W1 C1 G1 HC HD HS Hsr M1 HK EMS ES KN ROC FP Hi ED EU ER0 EM ltac:(lia) ltac:(lia) ltac:(unfold U16 in *; congruence) HA) as (z & evs & pk & E & EP & A & B & D & T & SY).
  assert (rtp_mode z = true) as MZ. { assert (op_fine y (RRtp now2 h dec)) as OFI by (split; assumption).
      assert (rxstep y (RRtp now2 h dec) = Ok (z, ORtp evs)) as ST by (cbn [rxstep]; rewrite E; reflexivity). destruct (step_pending _ _ _ _ W1 OFI ST) as (X & _). congruence. }
  do 3 eexists. split; [|split; [rewrite EW in A; exact A|split; [exact B|split; [exact D|exact T]]]]. cbn [rxrun rxstep]. rewrite E. cbn [bind]. rewrite SY, MZ, EP. reflexivity.
Qed.
Print Assumptions C44_asked_repair_delivered.

(** C44 with C43. What the sending side puts in a repair packet for a written packet [w] is what the
    receiving side takes out: marker, time, number and payload of [w]. *)
From Verif Require TxSpec.
Theorem C44_repair_restores_what_was_written : forall p w k pt, TxSpec.repeats p w ->
  exists a b rest, TxSpec.payload_of p = a :: b :: rest /\ TxSpec.body_of w rest /\
    let h := restored (rc_hdr (snd p)) k pt (256 * a + b) in
    marker h = w_marker w /\ timestamp h = w_time w /\ sequence_number h = w_seq w mod 65536 /\ payload_type h = pt /\ ssrc h = k.
Proof.
  intros p w k pt (body & B & E & T & M). unfold be16 in E. cbn [app] in E. do 3 eexists. split; [exact E|]. split; [exact B|]. cbv zeta. split; [exact M|]. split; [exact T|]. split; [|split; reflexivity].
  cbn [sequence_number restored]. unfold U16. pose proof (Z.mod_pos_bound (w_seq w) 65536 ltac:(lia)) as HB. set (x := w_seq w mod 65536) in *. clearbody x. dlia.
Qed.
Print Assumptions C44_repair_restores_what_was_written.

(** * A session *)
Definition C44_h (k pt n ts : Z) : header := mkH 2 false false 0 false pt n ts k [] ev0 12.
Definition C44_hm (k pt n ts : Z) : header := mkH 2 false true 0 false pt n ts k [] (ev_ids ev0 None None (Some [48])) 20.
Definition C44_at (i : Z) (data : list Z) : Z -> option (list Z) := fun q => if q =? i then Some data else None.
Definition C44_forged : Z -> option (list Z) := fun _ => None.
Definition C44_setup : list rop :=
  [RCodecs [mkPar 96 (Some 97) 90000]; RDeclare (mkMedia [48] RNone); RSrtp; RExpect 1 (Some 2) [48] None false].
Definition C44_ids (mode : bool) (ops : list rop) : res (list (Z * Z)) :=
  match rxrun (sess0 mode) ops with Ok (_, l) => Ok (map pid (polled l)) | Err => Err | Panic => Panic end.
Definition C44_isrtx (k : Z) : bool := k =? 2.
Definition C44_rtxpt (k : Z) : bool := k =? 97.

Lemma C44_at_bytes i data : bytes_ok data -> forall q raw, C44_at i data q = Some raw -> bytes_ok raw.
Proof. intros B q raw H. unfold C44_at in H. destruct (q =? i); [|discriminate]. inversion H; subst. exact B. Qed.
Ltac fine1 := cbn [op_fine sequence_number C44_h C44_hm]; lazymatch goal with
  | |- True => exact Logic.I
  | |- In _ _ => cbn; tauto
  | |- 0 <= _ => lia
  | |- _ /\ _ => split; [unfold U16; lia|first [apply C44_at_bytes; repeat constructor; unfold byte_ok; lia|intros q raw HH; discriminate HH]]
  end.
Ltac fine := cbn [app]; repeat (cbn [ops_fine]; first [exact Logic.I|split; [fine1|lazymatch goal with |- match ?e with _ => _ end => let v := eval vm_compute in e in change e with v; cbv beta iota end]]).
Definition C44_ops : list rop := C44_setup ++
  [RRtp 0 (C44_h 1 96 10 1000) (C44_at 10 [5; 6]); RPollPacket;
   RRtp 1 (C44_h 1 96 10 1000) (C44_at 10 [5; 6]); RPollPacket;
   RRtp 2 (C44_h 1 96 12 3000) (C44_at 12 [7]); RPollPacket;
   RTimeout 100000 9 5000000 1000000;
   RRtp 120000 (C44_h 2 97 500 2000) (C44_at 500 [0; 11; 8; 8]); RPollPacket;
   RRtp 120001 (C44_h 2 97 501 2000) (C44_at 501 [0; 11; 8; 8]); RPollPacket].
Example C44_ops_run : C44_ids true C44_ops = Ok [(1, 10); (1, 12); (1, 11)].
Proof. vm_compute. reflexivity. Qed.
Example C44_ops_fine : ops_fine (sess0 true) C44_ops.
Proof. unfold C44_ops, C44_setup. fine. Qed.
Ltac class1 := lazymatch goal with
  | |- op_class _ _ (RCodecs _) => intros ? [<-|[]]; split; [reflexivity|]; intros ? HH; inversion HH; reflexivity
  | |- op_class _ _ (RExpect _ _ _ _ _) => split; [reflexivity|]; intros ? HH; inversion HH; reflexivity
  | |- op_class _ _ (RRtp _ _ _) => split; [intros _; reflexivity|]; intros _; split; [reflexivity|]; split; [intros NE; exfalso; exact (NE eq_refl)|intros _ NE; exfalso; exact (NE eq_refl)]
  | |- _ => exact Logic.I
  end.
Example C44_ops_class : Forall (op_class C44_isrtx C44_rtxpt) C44_ops.
Proof. unfold C44_ops, C44_setup. cbn [app]. repeat (apply Forall_cons; [class1|]). apply Forall_nil. Qed.
Fixpoint drainsb (ops : list rop) : bool :=
  match ops with
  | [] => true
  | RRtp _ _ _ :: r => match r with RPollPacket :: _ => drainsb r | _ => false end
  | _ :: r => drainsb r
  end.
Lemma drainsb_ok ops : drainsb ops = true -> drains ops.
Proof.
  intros H a. revert ops H. induction a as [|o a IH]; intros ops H now h dec b ->.
  - cbn in H. destruct b as [|[] b]; try discriminate H. eauto.
  - apply (IH (a ++ RRtp now h dec :: b)) with (now := now) (h := h) (dec := dec); [|reflexivity]. cbn [app drainsb] in H. destruct o; try exact H.
    destruct (a ++ RRtp now h dec :: b) as [|[] r]; try discriminate H. exact H.
Qed.
Example C44_ops_drains : drains C44_ops.
Proof. apply drainsb_ok. vm_compute. reflexivity. Qed.
(** the hypotheses of delivery are met: the third packet of the session above *)
Example C44_fresh_case : exists x l s, rxrun (sess0 true) (firstn 8 C44_ops) = Ok (x, l) /\ srtp x = true /\ aget 1 (streams x) = Some s /\ s_roc s = None /\
  find_param (codecs x) 96 = Some (mkPar 96 (Some 97) 90000) /\ (forall q, In (1, q) (map pid (polled l)) -> q < 12) /\ (exists q, In (1, q) (map pid (polled l)) /\ 12 < q + 32768).
Proof.
  eexists. eexists. eexists. split; [vm_compute; reflexivity|]. repeat (split; [vm_compute; reflexivity|]). split.
  - intros q H. vm_compute in H. destruct H as [H|[]]. inversion H. lia.
  - exists 10. split; [vm_compute; left; reflexivity|lia].
Qed.
(** the session above asks for 11 *)
Example C44_repair_case : exists x l y, rxrun (sess0 true) (firstn 10 C44_ops) = Ok (x, l) /\
  rxstep x (RTimeout 100000 9 5000000 1000000) = Ok (y, OFeedback [FbNack 9 1 [mkEntry 11 0]]) /\
  snd (mid_ssrc y 120000 2) = Some ([48], 1).
Proof. eexists. eexists. eexists. split; [vm_compute; reflexivity|]. split; vm_compute; reflexivity. Qed.

(** * Packets that SRTP rejects *)
(** C44 (partial: the SSRC is mapped and its stream has heard both media and repair packets; see below for
    what a rejected packet does otherwise). A datagram that SRTP rejects changes nothing but the time
    the SSRC was last looked up. *)
Theorem C44_rejected_packet_changes_nothing_partial : forall x now h m k s, aget (ssrc h) (lookups x) = Some m -> l_main m = k ->
  aget k (streams x) = Some s -> NoDup (map fst (streams x)) -> s_reg s <> None -> s_regx s <> None -> s_roc s = None ->
  exists y, rxstep x (RRtp now h (fun _ => None)) = Ok (y, ORtp []) /\
    streams y = streams x /\ maxseq y = maxseq x /\ medias y = medias x /\ codecs y = codecs x /\ pending y = pending x /\ bytes_rx y = bytes_rx x /\ srtp y = srtp x /\
    (forall j, j <> ssrc h -> aget j (lookups y) = aget j (lookups x)) /\ aget (ssrc h) (lookups y) = Some (mkLk (l_mid m) (l_main m) now).
Proof.
  intros x now h m k s EL EK ES ND R1 R2 ROC. subst k. cbn [rxstep]. unfold handle_rtp, mid_for_header, mid_ssrc. rewrite EL. cbn [bind set_streams streams lookups srtp maxseq codecs probe].
  assert (L2 : (forall j, j <> ssrc h -> aget j (aset (ssrc h) (mkLk (l_mid m) (l_main m) now) (lookups x)) = aget j (lookups x)) /\ aget (ssrc h) (aset (ssrc h) (mkLk (l_mid m) (l_main m) now) (lookups x)) = Some (mkLk (l_mid m) (l_main m) now)).
  { split; [intros j J|]; rewrite aset_get; [replace (j =? ssrc h) with false by lia; reflexivity|rewrite Z.eqb_refl; reflexivity]. }
  destruct (srtp x) eqn:SR; cbn [negb]; [|eexists; split; [reflexivity|]; cbn; rewrite SR; auto 12].
  rewrite ES. destruct (if l_main m =? 0 then _ else _) as [p|]; [|eexists; split; [reflexivity|]; cbn; rewrite SR; auto 12].
  assert (SAME : forall rep, exists q, extend_seq s h rep (seq_lookup (maxseq x)) = (s, q)).
  { intro rep. destruct s as [? ? ? ? ? ? ? ? ? roc reg regx ? ? ? ? ? ? ? ? ? ? ? ? ? ?]. cbn in R1, R2, ROC. subst roc. unfold extend_seq, set_regs. destruct reg; [|contradiction]. destruct regx; [|contradiction]. destruct rep; eexists; reflexivity. }
  destruct (SAME (negb (p_pt p =? payload_type h))) as [q ->].
  assert (SS : aset (l_main m) s (streams x) = streams x).
  { clear -ES. revert ES. induction (streams x) as [|[j t] r IH]; [discriminate|]. cbn. destruct (j =? l_main m) eqn:J; [intro E; inversion E; apply Z.eqb_eq in J; subst; reflexivity|]. intro E. rewrite IH by exact E. reflexivity. }
  assert (NP : exists b, is_new_packet s (negb (p_pt p =? payload_type h)) q = Ok b).
  { unfold is_new_packet. destruct (negb _); [destruct (s_regx s); [eauto|contradiction]|destruct (s_reg s); [eauto|contradiction]]. }
  destruct NP as [b ->]. cbn [bind]. destruct (negb b); (eexists; split; [reflexivity|]); cbn; rewrite SR, SS; auto 12.
Qed.
Print Assumptions C44_rejected_packet_changes_nothing_partial.
Example C44_rejected_case : exists x l m s, rxrun (sess0 true) C44_ops = Ok (x, l) /\ aget 1 (lookups x) = Some m /\ l_main m = 1 /\ aget 1 (streams x) = Some s /\
  s_reg s <> None /\ s_regx s <> None /\ s_roc s = None.
Proof. do 4 eexists. split; [vm_compute; reflexivity|]. split; [vm_compute; reflexivity|]. split; [reflexivity|]. split; [vm_compute; reflexivity|]. cbn [s_reg s_regx s_roc]. split; [discriminate|]. split; [discriminate|reflexivity]. Qed.

(** An attacker without keys who knows the mid sends one packet with another SSRC: the stream moves to
    that SSRC before SRTP is asked, and the next authentic packet of the peer is lost. *)
Theorem C44_forged_packet_diverts_stream_refuted : exists pre h i data forged,
  forged = C44_hm 99 96 7 1000 /\
  C44_ids true (pre ++ [RRtp 1 h (C44_at i data); RPollPacket]) = Ok [(1, 10); (1, 11)] /\
  C44_ids true (pre ++ [RRtp 0 forged C44_forged; RPollPacket] ++ [RRtp 1 h (C44_at i data); RPollPacket]) = Ok [(1, 10)].
Proof.
  exists (C44_setup ++ [RRtp 0 (C44_hm 1 96 10 1000) (C44_at 10 [5; 6]); RPollPacket]), (C44_h 1 96 11 1000), 11, [5; 6]. eexists. split; [reflexivity|].
  split; vm_compute; reflexivity.
Qed.
Print Assumptions C44_forged_packet_diverts_stream_refuted.
(** A rejected packet also uses up the rollover counter the application gave with reset_roc: the
    authentic packet after it is lost. *)
Theorem C44_forged_packet_uses_up_roc_refuted : exists pre h i data,
  C44_ids true (pre ++ [RRtp 1 h (C44_at i data); RPollPacket]) = Ok [(1, i)] /\
  C44_ids true (pre ++ [RRtp 0 (C44_h 1 96 10 1000) C44_forged; RPollPacket] ++ [RRtp 1 h (C44_at i data); RPollPacket]) = Ok [].
Proof.
  exists (C44_setup ++ [RResetRoc 1 3]), (C44_h 1 96 11 1000), (3 * 65536 + 11), [5; 6]. split; vm_compute; reflexivity.
Qed.
Print Assumptions C44_forged_packet_uses_up_roc_refuted.
(** "At most once" needs the forged packets to respect the split of SSRCs too: after reset_roc, one
    forged packet with the media payload type on the repair SSRC opens the window again, and a replayed
    datagram is delivered twice. *)
Theorem C44_replay_after_forged_packet_refuted : exists ops, ops_fine (sess0 true) ops /\
  (forall now h dec, In (RRtp now h dec) ops -> (exists q, dec q <> None) -> pkt_class C44_isrtx C44_rtxpt h) /\
  C44_ids true ops = Ok [(1, 100); (1, 100)].
Proof.
  exists (C44_setup ++ [RRtp 0 (C44_h 1 96 100 1000) (C44_at 100 [5; 6]); RPollPacket; RResetRoc 1 0; RRtp 1 (C44_h 2 96 7 1000) C44_forged; RPollPacket;
                        RRtp 2 (C44_h 1 96 100 1000) (C44_at 100 [5; 6]); RPollPacket]).
  split; [unfold C44_setup; fine|]. split; [|vm_compute; reflexivity]. intros now h dec H (q & Q). unfold C44_setup in H. cbn [app] in H.
  assert (pkt_class C44_isrtx C44_rtxpt (C44_h 1 96 100 1000)) as PC by (split; [intros _; reflexivity|]; intros _; split; [reflexivity|]; split; [intros NE; exfalso; exact (NE eq_refl)|intros _ NE; exfalso; exact (NE eq_refl)]).
  repeat (destruct H as [H|H]; [try discriminate H; inversion H; subst; try exact PC; exfalso; apply Q; reflexivity|]). destruct H.
Qed.
Print Assumptions C44_replay_after_forged_packet_refuted.
(** The index of a repaired packet is guessed from its 16-bit number without SRTP checking it.  If the
    first packet heard was number 10 and a repair for number 65530 arrives (the peer started there), the
    packet gets an index just below 2^64 and the authentic packets 11, 12 that follow are all lost. *)
Theorem C44_early_repair_kills_stream_refuted : exists ops, ops_fine (sess0 true) ops /\ Forall (op_class C44_isrtx C44_rtxpt) ops /\ drains ops /\
  In (RRtp 2 (C44_h 1 96 11 1000) (C44_at 11 [5; 6])) ops /\ In (RRtp 3 (C44_h 1 96 12 1000) (C44_at 12 [5; 6])) ops /\
  C44_ids true ops = Ok [(1, 10); (1, 2 ^ 64 - 6)].
Proof.
  exists (C44_setup ++ [RRtp 0 (C44_h 1 96 10 1000) (C44_at 10 [5; 6]); RPollPacket; RRtp 1 (C44_h 2 97 7 1000) (C44_at 7 [255; 250; 1]); RPollPacket;
    RRtp 2 (C44_h 1 96 11 1000) (C44_at 11 [5; 6]); RPollPacket; RRtp 3 (C44_h 1 96 12 1000) (C44_at 12 [5; 6]); RPollPacket]).
  unfold C44_setup. split; [fine|]. split; [cbn [app]; repeat (apply Forall_cons; [class1|]); apply Forall_nil|]. split; [apply drainsb_ok; reflexivity|].
  split; [cbn; tauto|]. split; [cbn; tauto|]. vm_compute. reflexivity.
Qed.
Print Assumptions C44_early_repair_kills_stream_refuted.
(** A repair packet whose payload is a single byte (not even a number) is delivered as the packet numbered 0
    of the stream, and the authentic packet with that number is then dropped. *)
Theorem C44_one_byte_repair_refuted : exists ops, ops_fine (sess0 true) ops /\ Forall (op_class C44_isrtx C44_rtxpt) ops /\ drains ops /\
  (exists h, In (RRtp 1 h (C44_at 7 [42])) ops /\ payload_type h = 97) /\ In (RRtp 2 (C44_h 1 96 0 1000) (C44_at 65536 [5; 6])) ops /\
  C44_ids true ops = Ok [(1, 65535); (1, 65536)] /\
  exists x l p, rxrun (sess0 true) ops = Ok (x, l) /\ In p (polled l) /\ q_seq p = 65536 /\ q_pay p = [42].
Proof.
  exists (C44_setup ++ [RRtp 0 (C44_h 1 96 65535 1000) (C44_at 65535 [5; 6]); RPollPacket; RRtp 1 (C44_h 2 97 7 1000) (C44_at 7 [42]); RPollPacket;
    RRtp 2 (C44_h 1 96 0 1000) (C44_at 65536 [5; 6]); RPollPacket]).
  unfold C44_setup. split; [fine|]. split; [cbn [app]; repeat (apply Forall_cons; [class1|]); apply Forall_nil|]. split; [apply drainsb_ok; reflexivity|]. split; [|split; [|split; [vm_compute; reflexivity|]]].
  - exists (C44_h 2 97 7 1000). split; [cbn; tauto|reflexivity].
  - cbn; tauto.
  - eexists. eexists. eexists. split; [vm_compute; reflexivity|]. split; [vm_compute; right; left; reflexivity|]. split; reflexivity.
Qed.
Print Assumptions C44_one_byte_repair_refuted.

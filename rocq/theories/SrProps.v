(** C45: sender reports; and (C43) the requests the peer sends for a stream. *)
From Verif Require Import Base BaseFacts MtimeModel SendQueueModel EvictModel EvictSpec EvictProps Vp8Model ExtModel HeaderModel NackModel
  TxModel TxSpec TxProofs TxProofs2 TxProofs3 TxProofs4 TxProps SrSpec SrProofs.

(** ** Requests *)
(** Asking a stream for keyframe requests gives the last PLI or FIR that came in since the last time it was asked
    (or since the SSRC was changed), and nothing when none came in. *)
Theorem C43_keyframe_request : forall ex al ss rtx mid_ rid_ mtu q0 qr lst tw ops ys y,
  C43_run ex al ss rtx mid_ rid_ mtu q0 qr lst tw (ops ++ [XPollKf]) (ys ++ [y]) -> y = YKf (kf_pending ops).
Proof.
  intros ex al ss rtx mid_ rid_ mtu q0 qr lst tw ops ys y (s' & tw' & T). apply txrun_snoc in T as (s1 & tw1 & ys1 & y1 & T & S & E).
  apply app_inj_tail in E as (_ & ->). assert (A : AC (tx_new ss rtx mid_ rid_ mtu al q0 qr lst)) by (split; reflexivity).
  destruct (run_req _ _ _ _ _ _ _ _ A T) as (A1 & B & _). destruct (req_step _ _ _ _ _ _ _ _ A1 S) as (_ & _ & _ & C & _).
  rewrite (C eq_refl), B. reflexivity.
Qed.
Print Assumptions C43_keyframe_request.
(** Likewise the bitrate estimate (REMB). *)
Theorem C43_remb_request : forall ex al ss rtx mid_ rid_ mtu q0 qr lst tw ops ys y,
  C43_run ex al ss rtx mid_ rid_ mtu q0 qr lst tw (ops ++ [XPollRemb]) (ys ++ [y]) -> y = YRemb (remb_pending ops).
Proof.
  intros ex al ss rtx mid_ rid_ mtu q0 qr lst tw ops ys y (s' & tw' & T). apply txrun_snoc in T as (s1 & tw1 & ys1 & y1 & T & S & E).
  apply app_inj_tail in E as (_ & ->). assert (A : AC (tx_new ss rtx mid_ rid_ mtu al q0 qr lst)) by (split; reflexivity).
  destruct (run_req _ _ _ _ _ _ _ _ A T) as (A1 & _ & B). destruct (req_step _ _ _ _ _ _ _ _ A1 S) as (_ & _ & _ & _ & C).
  rewrite (C eq_refl), B. reflexivity.
Qed.
Print Assumptions C43_remb_request.
Example C43_request_case : C43_run (fun _ _ _ => false) 0 1 (Some 2) [] None 1200 0 0 0 0
  ([XRtcp 5 FPli; XRtcp 6 FFir; XRtcp 7 (FRemb 300)] ++ [XPollKf]) ([YNone; YNone; YNone] ++ [YKf (Some true)]).
Proof. eexists _, _. vm_compute. reflexivity. Qed.

(** ** Sender reports *)
(** While the payload types of all packets written are known, a report names the stream's SSRC, the cname given at the
    first timeout, and counts the packets that went out with media and their payload octets, modulo 2^32: first
    transmissions and retransmissions, no padding. *)
Theorem C45_counts_partial : forall ex al ss rs mid_ rid_ mtu q0 qr lst tw ops now ys r, rs <> ss ->
  Forall op_ok ops -> Forall keeps_ssrc ops -> all_known ops ->
  C43_run ex al ss (Some rs) mid_ rid_ mtu q0 qr lst tw (ops ++ [XSr now]) (ys ++ [YSr r]) ->
  sr_ssrc r = ss /\ sr_ntp r = now /\ sr_cname r = cname_of ops /\
  sr_packets r = zlen (media_out ys) mod U32 /\ sr_octets r = octets rs (media_out ys) mod U32.
Proof.
  intros ex al ss rs mid_ rid_ mtu q0 qr lst tw ops now ys r NE OK KS AK (s' & tw' & T). apply txrun_snoc in T as (s1 & tw1 & ys1 & y1 & T & S & E).
  apply app_inj_tail in E as (-> & <-). assert (A : AC (tx_new ss (Some rs) mid_ rid_ mtu al q0 qr lst)) by (split; reflexivity).
  destruct (fun W P => run_stats ex al ss rs NE (writes ops) ops _ _ _ _ _ _ None (R_new ss (Some rs) mid_ rid_ mtu al q0 qr lst tw) (Id_new ss rs mid_ rid_ qr tw)
    ltac:(intros w [[]|[]]) A OK KS W P eq_refl T) as (B1 & B2 & B3 & B4 & B5 & B6).
  - intros w W. unfold writes. apply in_flat_map. exists (XWrite w). split; [exact W|left; reflexivity].
  - intros n m en ps w P W. unfold writes in W. apply in_flat_map in W as (o & W1 & W2). destruct o; try destruct W2. subst w0. eapply AK; eauto. destruct H.
  - unfold txstep, create_sr in S. destruct (current_rtp_time s1 now) as [ot| |]; cbn [bind] in S; try discriminate. injection S as _ _ <-.
    cbn [sr_ssrc sr_ntp sr_cname sr_packets sr_octets]. rewrite B1, B2, B5, B6. repeat split; reflexivity.
Qed.
Print Assumptions C45_counts_partial.

(** The RTP time of a report: the time of the packet written last, moved on by the wallclock time since, in the clock of
    the media packet sent last; never ahead, and behind by less than a tick and 2 microseconds. *)
Theorem C45_rtp_time : forall ex al ss rs mid_ rid_ mtu q0 qr lst tw ops now ys r, rs <> ss ->
  Forall op_ok ops -> Forall keeps_ssrc ops -> all_known ops ->
  C43_run ex al ss (Some rs) mid_ rid_ mtu q0 qr lst tw (ops ++ [XSr now]) (ys ++ [YSr r]) ->
  match last_write ops, clock_of ss ops ys with
  | Some w, Some cr =>
      if w_wall w <=? now
      then 0 < cr <= 1000000 -> 0 <= w_time w < U32 -> (now - w_wall w) / 1000 < U64 ->
        denom (sr_rtp r) = cr /\
        numer (sr_rtp r) * 1000000000 <= w_time w * 1000000000 + (now - w_wall w) * cr < (numer (sr_rtp r) + 1) * 1000000000 + 2000 * cr
      else sr_rtp r = mkT 0 1
  | _, _ => sr_rtp r = mkT 0 1
  end.
Proof.
  intros ex al ss rs mid_ rid_ mtu q0 qr lst tw ops now ys r NE OK KS AK (s' & tw' & T). apply txrun_snoc in T as (s1 & tw1 & ys1 & y1 & T & S & E).
  apply app_inj_tail in E as (-> & <-). assert (A : AC (tx_new ss (Some rs) mid_ rid_ mtu al q0 qr lst)) by (split; reflexivity).
  destruct (fun W P => run_stats ex al ss rs NE (writes ops) ops _ _ _ _ _ _ None (R_new ss (Some rs) mid_ rid_ mtu al q0 qr lst tw) (Id_new ss rs mid_ rid_ qr tw)
    ltac:(intros w [[]|[]]) A OK KS W P eq_refl T) as (_ & _ & B3 & B4 & _ & _).
  - intros w W. unfold writes. apply in_flat_map. exists (XWrite w). split; [exact W|left; reflexivity].
  - intros n m en ps w P W. unfold writes in W. apply in_flat_map in W as (o & W1 & W2). destruct o; try destruct W2. subst w0. eapply AK; eauto. destruct H.
  - unfold txstep, create_sr, current_rtp_time in S. cbn [x_clock tx_new] in B3. change (fold_left (clock_after ss) (combine ops ys1) None) with (clock_of ss ops ys1) in B3.
    change (fold_left wr_step ops None) with (last_write ops) in B4. rewrite B3, B4 in S. destruct (last_write ops) as [w|]; cbn [option_map wallpair] in S.
    2:{ cbn [bind] in S. injection S as _ _ <-. reflexivity. }
    destruct (clock_of ss ops ys1) as [cr|]; [|cbn [bind] in S; injection S as _ _ <-; reflexivity].
    destruct (Z.ltb_spec now (w_wall w)); destruct (Z.leb_spec (w_wall w) now); try lia; [cbn [bind] in S; injection S as _ _ <-; reflexivity|].
    intros CR WT OF. set (off := now - w_wall w) in *. assert (0 <= off) by (unfold off; lia). clearbody off.
    assert (FD : from_duration off = mkT (off / 1000) 1000000) by (unfold from_duration; rewrite Z.mod_small; [reflexivity|]; split; [apply Z.div_pos; lia|exact OF]).
    rewrite FD in S. set (o := off / 1000) in *. assert (OO : 1000 * o <= off < 1000 * o + 1000) by (unfold o; dlia). clearbody o.
    assert (TA : tadd (mkT (w_time w) cr) (mkT o 1000000) = (if w_time w * 1000000 / cr + o <? U64 then Ok (mkT (w_time w * 1000000 / cr + o) 1000000) else Panic)).
    { unfold tadd, same_base, rebase. cbn [denom numer]. rewrite Z.max_r by lia. rewrite Z.eqb_refl.
      destruct (Z.eqb_spec 1000000 cr) as [<-|N]; cbn [numer denom]; [rewrite Z.div_mul by lia; reflexivity|].
      rewrite Z.mod_small; [reflexivity|]. split; [apply Z.div_pos; lia|]. apply Z.div_lt_upper_bound; [lia|]. unfold U32, U64 in *. nia. }
    rewrite TA in S. destruct (_ <? U64) eqn:LT; cbn [bind] in S; [|discriminate]. injection S as _ _ <-. cbn [sr_rtp].
    set (t := w_time w) in *. set (q := t * 1000000 / cr) in *. assert (q * cr <= t * 1000000 < q * cr + cr) by (unfold q; pose proof (Z.div_mod (t * 1000000) cr ltac:(lia)); pose proof (Z.mod_pos_bound (t * 1000000) cr ltac:(lia)); nia).
    assert (0 <= q) by (unfold q; apply Z.div_pos; lia). clearbody q.
    unfold rebase. cbn [denom numer]. destruct (Z.eqb_spec cr 1000000) as [->|N]; cbn [denom numer].
    + split; [reflexivity|]. nia.
    + split; [reflexivity|]. set (v := (q + o) * cr / 1000000). assert (v * 1000000 <= (q + o) * cr < v * 1000000 + 1000000) by (unfold v; dlia).
      clearbody v t. assert ((q + o) * cr <= (q + o) * 1000000) by (apply Z.mul_le_mono_nonneg_l; lia).
      assert (0 <= (q + o) * cr) by (apply Z.mul_nonneg_nonneg; lia). apply Z.ltb_lt in LT.
      rewrite Z.mod_small by lia. assert (1000 * o * cr <= off * cr < (1000 * o + 1000) * cr) by (split; [apply Z.mul_le_mono_nonneg_r|apply Z.mul_lt_mono_pos_r]; lia). lia.
Qed.
Print Assumptions C45_rtp_time.

(** * The hypotheses are met, and where the reports are wrong *)
Definition C45_at (ops : list txop) (now : Z) : res (list txout) := C43_ys (Some 11) 1350 (ops ++ [XSr now]).
Definition C45_last (ys : list txout) : option sr := match last ys YNone with YSr r => Some r | _ => None end.
Lemma C45_run_of ops now ys : C45_at ops now = Ok ys -> C43_run C43_never 0 10 (Some 11) [109] None 1350 0 5000 0 70 (ops ++ [XSr now]) ys.
Proof. unfold C45_at, C43_ys, C43_run. destruct (txrun _ _ _ _ _) as [[[s t] y]| |]; try discriminate. intros [= ->]. eauto. Qed.
Ltac C45_known := intros w n m en ps W P; cbn [In C43_ops C43_poll] in W, P;
  repeat (destruct W as [W|W]; [try discriminate W; injection W as <-|]); try destruct W;
  repeat (destruct P as [P|P]; [try discriminate P; injection P as <- <- <- <-|]); try destruct P;
  eexists; (split; [left; reflexivity|reflexivity]).
Example C45_case : exists ys r, C45_at C43_ops 3000000 = Ok (ys ++ [YSr r]) /\ Forall op_ok C43_ops /\ Forall keeps_ssrc C43_ops /\ all_known C43_ops /\
  last_write C43_ops = Some (C43_w 2) /\ clock_of 10 C43_ops ys = Some 90000 /\ sr_packets r = 3 /\ sr_octets r = 9 /\ sr_cname r = Some [99] /\ sr_rtp r = mkT 6089 90000.
Proof.
  exists (match C45_at C43_ops 3000000 with Ok ys => removelast ys | _ => [] end), (match C45_at C43_ops 3000000 with Ok ys => match C45_last ys with Some r => r | None => mkSr 0 0 (mkT 0 1) 0 0 None end | _ => mkSr 0 0 (mkT 0 1) 0 0 None end).
  split; [vm_compute; reflexivity|]. split; [repeat constructor; cbn; unfold U64, U16; lia|]. split; [repeat constructor|].
  split; [C45_known|]. vm_compute. repeat split.
Qed.
(** A receiver takes the packet count for the packets sent on the SSRC the report names.  It is more as soon as one
    packet was retransmitted (on the RTX SSRC): loss figures computed from it are wrong. *)
Theorem C45_counts_own_packets_refuted : exists ops now ys r, Forall op_ok ops /\ Forall keeps_ssrc ops /\ all_known ops /\
  C43_run C43_never 0 10 (Some 11) [109] None 1350 0 5000 0 70 (ops ++ [XSr now]) (ys ++ [YSr r]) /\
  sr_ssrc r = 10 /\ zlen (filter (on_ssrc 10) (packets ys)) = 2 /\ sr_packets r = 3.
Proof.
  destruct C45_case as (ys & r & H & A & B & C & _ & _ & D & _). exists C43_ops, 3000000, ys, r. pose proof (C45_run_of _ _ _ H) as RU.
  split; [exact A|]. split; [exact B|]. split; [exact C|]. split; [exact RU|].
  destruct (C45_counts_partial _ _ 10 11 _ _ _ _ _ _ _ C43_ops 3000000 ys r ltac:(lia) A B C RU) as (E & _). split; [exact E|]. split; [|exact D].
  assert (ys = match C45_at C43_ops 3000000 with Ok ys => removelast ys | _ => [] end) as -> by (rewrite H, removelast_last; reflexivity). vm_compute. reflexivity.
Qed.
Print Assumptions C45_counts_own_packets_refuted.
(** A packet that is dropped because its payload type is not known is counted as sent. *)
Theorem C45_counts_sent_packets_refuted : exists ops now ys r, Forall op_ok ops /\ Forall keeps_ssrc ops /\
  C43_run C43_never 0 10 (Some 11) [109] None 1350 0 5000 0 70 (ops ++ [XSr now]) (ys ++ [YSr r]) /\ packets ys = [] /\ sr_packets r = 1.
Proof.
  set (ops := [XWrite (C43_w 1); XTimeout 1000000 false [99] (Some 96); XPoll 1000000 C43_map true []]).
  exists ops, 2000000, [YNone; YNone; YNone], (mkSr 10 2000000 (mkT 0 1) 1 3 (Some [99])).
  split; [repeat constructor; cbn; unfold U64, U16; lia|]. split; [repeat constructor|]. split; [apply C45_run_of; vm_compute; reflexivity|]. split; reflexivity.
Qed.
Print Assumptions C45_counts_sent_packets_refuted.
(** The RTP time is not exact even where it could be: here 6000 plus 1 ms is 6090, the report says 6089. *)
Theorem C45_rtp_time_exact_refuted : exists ops now ys r w, Forall op_ok ops /\ Forall keeps_ssrc ops /\ all_known ops /\
  C43_run C43_never 0 10 (Some 11) [109] None 1350 0 5000 0 70 (ops ++ [XSr now]) (ys ++ [YSr r]) /\
  last_write ops = Some w /\ clock_of 10 ops ys = Some 90000 /\ (w_time w * 1000000000 + (now - w_wall w) * 90000) = 6090 * 1000000000 /\ sr_rtp r = mkT 6089 90000.
Proof.
  destruct C45_case as (ys & r & H & A & B & C & D & E & _ & _ & _ & F). exists C43_ops, 3000000, ys, r, (C43_w 2).
  split; [exact A|]. split; [exact B|]. split; [exact C|]. split; [exact (C45_run_of _ _ _ H)|]. split; [exact D|]. split; [exact E|]. split; [reflexivity|exact F].
Qed.
Print Assumptions C45_rtp_time_exact_refuted.
(** When the wallclock of the packet written last lies ahead of the report, the report maps its NTP time to RTP time 0,
    whatever RTP time the media is at (here 3000 and 6000). *)
Theorem C45_future_wallclock_refuted : exists ops now ys r, Forall op_ok ops /\ Forall keeps_ssrc ops /\ all_known ops /\
  C43_run C43_never 0 10 (Some 11) [109] None 1350 0 5000 0 70 (ops ++ [XSr now]) (ys ++ [YSr r]) /\
  map (fun p => timestamp (rc_hdr (snd p))) (packets ys) = [3000; 6000] /\ sr_rtp r = mkT 0 1 /\ sr_packets r = 2.
Proof.
  set (ops := [XWrite (C43_w 1); XWrite (C43_w 2); XTimeout 1000000 false [99] (Some 96); C43_poll 1000000; C43_poll 1000000]).
  set (ys := match C45_at ops 1500000 with Ok ys => removelast ys | _ => [] end).
  exists ops, 1500000, ys, (mkSr 10 1500000 (mkT 0 1) 2 6 (Some [99])).
  split; [repeat constructor; cbn; unfold U64, U16; lia|]. split; [repeat constructor|]. split; [unfold ops; C45_known|].
  split; [apply C45_run_of; vm_compute; reflexivity|]. vm_compute. auto.
Qed.
Print Assumptions C45_future_wallclock_refuted.

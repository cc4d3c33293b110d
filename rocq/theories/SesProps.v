(** C55: what leaves a session. *)
From Coq Require Import Sorting.Sorted Permutation.
From Verif Require Import Base BaseFacts RtcpModel RtcpSpec SrtpModel SrtpSpec SrtpProps SeqModel MtimeModel ExtModel HeaderModel
  TxModel TxSpec TxProofs TxProofs2 WrModel WrSpec WrProofs WrProofs2 WrProofs3 WrProofs4 WrProps SesModel SesSpec SesProofs SesProofs2 SesProofs3 SesProofs4 SesProofs5.

(** * Keys of packets *)
Definition pkey (p : list Z * receipt) : Z * Z := (ssrc (rc_hdr (snd p)), rc_seq (snd p)).
Lemma nodup_by_ssrc l : (forall s, NoDup (map (fun p => rc_seq (snd p)) (filter (on_ssrc s) l))) -> NoDup (map pkey l).
Proof.
  induction l as [|p l IH]; intro H; cbn [map]; [constructor|]. constructor.
  - intro X. apply in_map_iff in X as (p' & E & X). unfold pkey in E. injection E as E1 E2. specialize (H (ssrc (rc_hdr (snd p)))).
    cbn [filter] in H. unfold on_ssrc at 1 in H. rewrite Z.eqb_refl in H. cbn [map] in H. inversion H as [|? ? N _]; subst. apply N.
    apply in_map_iff. exists p'. split; [exact E2|]. apply filter_In. split; [exact X|]. unfold on_ssrc. apply Z.eqb_eq. exact E1.
  - apply IH. intro s. specialize (H s). cbn [filter] in H. destruct (on_ssrc s p); [|exact H]. cbn [map] in H. inversion H; assumption.
Qed.
Lemma owners (l : list (nat * (list Z * receipt))) s k : (forall p, In p l -> on_ssrc s (snd p) = true -> fst p = k) ->
  filter (on_ssrc s) (map snd l) = filter (on_ssrc s) (map snd (filter (fun p => Nat.eqb (fst p) k) l)).
Proof.
  induction l as [|p l IH]; intro H; [reflexivity|]. cbn [map filter]. specialize (IH (fun q Hq => H q (or_intror Hq))).
  destruct (Nat.eqb_spec (fst p) k) as [E|N]; cbn [map filter]; destruct (on_ssrc s (snd p)) eqn:O; rewrite IH; try reflexivity.
  exfalso. apply N, H; [left; reflexivity|exact O].
Qed.
Lemma nodup_flat {A B} (f : A -> list B) l : NoDup (flat_map f l) -> forall k j a b x, nth_error l k = Some a -> nth_error l j = Some b ->
  In x (f a) -> In x (f b) -> k = j.
Proof.
  assert (forall l j b x, nth_error l j = Some b -> In x (f b) -> In x (flat_map f l)) as IN.
  { intros l0 j b x Hj Hx. apply in_flat_map. exists b. split; [eapply nth_error_In, Hj|exact Hx]. }
  induction l as [|c l IH]; intros ND [|k] [|j] a b x; cbn [nth_error flat_map] in *; try discriminate; intros H1 H2 X1 X2.
  - reflexivity.
  - injection H1 as ->. exfalso. specialize (IN _ _ _ _ H2 X2). clear - ND X1 IN. induction (f a) as [|y r IHr]; [destruct X1|].
    cbn [app] in ND. inversion ND as [|? ? N1 N2]; subst. destruct X1 as [->|X1]; [apply N1, in_or_app; right; exact IN|auto].
  - injection H2 as ->. exfalso. specialize (IN _ _ _ _ H1 X1). clear - ND X2 IN. induction (f b) as [|y r IHr]; [destruct X2|].
    cbn [app] in ND. inversion ND as [|? ? N1 N2]; subst. destruct X2 as [->|X2]; [apply N1, in_or_app; right; exact IN|auto].
  - f_equal. eapply IH; eauto. clear - ND. induction (f c) as [|y r IHr]; [exact ND|]. cbn [app] in ND. inversion ND; auto.
Qed.
Lemma frames_seq ps kinds k n l ws : frames ps kinds k n l ws -> forall i w, nth_error ws i = Some w -> w_seq w = n + Z.of_nat i.
Proof.
  induction 1 as [n|n m s cs l w1 w2 F _ IH|n a l ws _ _ IH]; intros i w Hi.
  - destruct i; discriminate.
  - destruct F as (p & au & _ & _ & _ & L & F). destruct (Nat.ltb i (length w1)) eqn:LT.
    + apply Nat.ltb_lt in LT. rewrite nth_error_app1 in Hi by exact LT. apply (fp_seq _ _ _ _ _ _ _ _ (F _ _ Hi)).
    + apply Nat.ltb_ge in LT. rewrite nth_error_app2 in Hi by exact LT. rewrite (IH _ _ Hi). unfold zlen. lia.
  - apply IH, Hi.
Qed.
Lemma nodup_from l n : (forall i x, nth_error l i = Some x -> x = n + Z.of_nat i) -> NoDup l.
Proof.
  intro H. apply NoDup_nth_error. intros i j Hi E. destruct (nth_error l i) as [x|] eqn:Ei; [|apply nth_error_None in Ei; lia].
  symmetry in E. specialize (H _ _ Ei) as H1. specialize (H _ _ E) as H2. lia.
Qed.
Lemma nodup_sorted l : StronglySorted Z.lt l -> NoDup l.
Proof.
  induction 1 as [|x l _ IH F]; constructor; [|exact IH]. intro X. rewrite Forall_forall in F. specialize (F _ X). lia.
Qed.
Lemma in_sent k p h : In (k, p) (SesSpec.sent h) <-> In p (out k h).
Proof.
  rewrite out_sent, in_map_iff. split.
  - intro H. exists (k, p). split; [reflexivity|]. apply filter_In. split; [exact H|apply Nat.eqb_refl].
  - intros ([k' p'] & E & H). apply filter_In in H as [H N]. cbn [fst snd] in *. apply Nat.eqb_eq in N. subst. exact H.
Qed.

Section C55.
Variables (P : Type) (fresh : codec -> P) (cut : P -> Z -> list Z -> P * option (list (list Z))).
Variables (Q : prims) (ex : Z -> Z -> Z -> bool) (al : Z) (ps : list wparam) (mtu mw : Z) (decl : decls) (w0 : wr P).
Variables (pre : list sop) (c : ctx) (post : list sop) (s : ses P) (ds : list dgram) (h : history).
Hypothesis SEND : sending fresh cut Q ex al ps mtu mw decl w0 pre c post s ds h.

Lemma ses_call_parts o : ses_call ps o -> quiet_call o /\ keyless o /\ call_ok ps o.
Proof.
  destruct o as [o| | | | |]; cbn [ses_call quiet_call keyless call_ok]; try tauto.
  destruct o as [| |k o| |]; try tauto. destruct o; tauto.
Qed.
Lemma calls_parts l : Forall (ses_call ps) l -> Forall quiet_call l /\ Forall keyless l /\ Forall (call_ok ps) l.
Proof. intro H. rewrite !Forall_forall in *. repeat split; intros o Ho; apply (ses_call_parts _ (H _ Ho)). Qed.

(** The run, taken apart. *)
Lemma C55_parts : Forall2 (made Q c) (rtps ds) (SesSpec.sent h) /\
  (forall i x, nth_error (rtcps ds) i = Some x -> exists b, protected_as Q c x b (Z.of_nat i mod 2147483648)) /\
  session fresh cut ex al ps mtu mw decl w0 (map fst h) (s_wr s) h /\ WX P decl (s_wr s) h.
Proof.
  destruct SEND as (ST & ND & RG & C1 & C2 & RE & MT & RUN & NF & N48 & CI).
  pose proof (run_wrun P fresh cut Q ex al ps mtu _ _ _ _ _ RUN) as W. cbn [s_wr] in W.
  destruct (calls_parts _ C1) as (A1 & A2 & A3). destruct (calls_parts _ C2) as (B1 & B2 & B3).
  destruct (run_calls P fresh cut Q ex al ps mtu _ _ _ _ _ (proj2 (Forall_app _ _ _) (conj A3 (Forall_cons (SKeys c) I B3))) RUN) as [F1 F2].
  rewrite ses_run_app in RUN. destruct (ses_run P fresh cut Q ex al ps mtu (mkSes w0 None []) pre) as [[[s1 d1] h1]| |] eqn:E1; cbn [bind] in RUN; try discriminate.
  destruct (run_unkeyed P fresh cut Q ex al ps mtu _ _ _ _ _ E1 eq_refl A1 A2) as (_ & -> & S1). cbn [SesModel.ses_run SesModel.ses_step bind] in RUN.
  destruct (ses_run P fresh cut Q ex al ps mtu (mkSes (s_wr s1) (Some c) (s_fb s1)) post) as [[[s2 d2] h2]| |] eqn:E2; cbn [bind] in RUN; try discriminate.
  injection RUN as <- <- <-. destruct (run_keyed P fresh cut Q ex al ps mtu _ _ _ _ _ c E2 eq_refl ltac:(lia) B1 B2) as (_ & K1 & K2).
  cbn [app]. split; [rewrite sent_app, S1; exact K1|]. split; [intros i x Hx; destruct (K2 _ _ Hx) as (b & Y); exists b; rewrite CI in Y; exact Y|].
  split; [repeat (split; [assumption|]); assumption|].
  exact (run_WX P fresh cut ps decl mtu ex al _ _ [] _ _ (start_WX P decl al mw _ ST) F1 W NF).
Qed.

Lemma C55_out k p : In p (out k h) -> exists ss rtx m r q0 x, nth_error decl k = Some (ss, rtx, m, r, q0) /\ rtx <> Some ss /\
  XI ss rtx x (w_tw (s_wr s)) (out k h) /\ packet_ok ss rtx p.
Proof.
  intro H. destruct C55_parts as (_ & _ & _ & W). specialize (W k). destruct (nth_error decl k) as [[[[[ss rtx] m] r] q0]|].
  - destruct W as (NE & x & _ & X). exists ss, rtx, m, r, q0, x. split; [reflexivity|]. split; [exact NE|]. split; [exact X|].
    destruct X as (a & _ & _ & _ & _ & F & _). rewrite Forall_forall in F. apply F, H.
  - destruct W as [_ W]. cbv beta in W. rewrite W in H. destruct H.
Qed.
Lemma packet_in ss rtx m r q0 k p : nth_error decl k = Some (ss, rtx, m, r, q0) -> packet_ok ss rtx p ->
  In (ssrc (rc_hdr (snd p))) (ss :: match rtx with Some r => [r] | None => [] end).
Proof. intros _ (_ & _ & _ & _ & _ & _ & [E|E]); [left; congruence|right; rewrite E; left; reflexivity]. Qed.

Lemma C55_nodup : NoDup (map pkey (map snd (SesSpec.sent h))).
Proof.
  destruct SEND as (_ & ND & _). apply nodup_by_ssrc. intro z.
  destruct (filter (on_ssrc z) (map snd (SesSpec.sent h))) as [|p0 l0] eqn:EF; [constructor|]. rewrite <- EF.
  assert (In p0 (filter (on_ssrc z) (map snd (SesSpec.sent h)))) as X by (rewrite EF; left; reflexivity). clear EF.
  apply filter_In in X as [X OZ]. apply in_map_iff in X as ([k p] & EP & X). cbn [snd] in EP. subst p. apply in_sent in X.
  destruct (C55_out _ _ X) as (ss & rtx & m & r & q0 & x & D & NE & XX & PK).
  assert (z = ssrc (rc_hdr (snd p0))) as EZ by (unfold on_ssrc in OZ; lia).
  rewrite (owners _ z k).
  2:{ intros [k' p'] Hp Hz. cbn [fst snd] in *. apply in_sent in Hp. destruct (C55_out _ _ Hp) as (ss' & rtx' & m' & r' & q' & x' & D' & _ & _ & PK').
      symmetry. eapply (nodup_flat _ _ ND k k' _ _ z D D'); cbv beta iota.
      - rewrite EZ. eapply packet_in; eassumption.
      - replace z with (ssrc (rc_hdr (snd p'))) by (unfold on_ssrc in Hz; lia). eapply packet_in; eassumption. }
  rewrite <- out_sent. destruct PK as (_ & _ & _ & _ & _ & _ & [E|E]).
  - destruct C55_parts as (_ & _ & SS & _). destruct (C54_on_the_wire P fresh cut ex al ps mtu mw decl w0 _ _ _ SS k _ _ _ _ _ D) as (ws & rest & F1 & F2).
    rewrite EZ, E. apply (nodup_from _ q0). intros i y Hy. rewrite nth_error_map in Hy.
    destruct (nth_error (filter (on_ssrc ss) (out k h)) i) as [p|] eqn:Ep; [|discriminate]. injection Hy as <-.
    assert (exists w, nth_error ws i = Some w /\ carries_all p w) as (w & Ew & [CA _]).
    { clear - F2 Ep. revert i Ep. induction F2; intros [|i] Ep; try discriminate; cbn [nth_error] in *; [injection Ep as <-; eauto|auto]. }
    destruct CA as [CA _]. unfold out_key, write_key in CA. injection CA as CA _ _ _ _. rewrite CA.
    apply (frames_seq _ _ _ _ _ _ F1 i w). rewrite nth_error_app1; [exact Ew|]. apply nth_error_Some. congruence.
  - destruct XX as (a & _ & _ & _ & _ & _ & YY). rewrite EZ. destruct (YY _ E) as [ZZ _]. apply nodup_sorted, ZZ.
Qed.

(** Every RTP datagram is the SRTP packet, with the RFC's construction, of a packet of a stream, in the order they came, on an
    SSRC declared; and no cipher input is used for two of them: for no two packets is there one with the same SSRC and index. *)
Theorem C55_fresh_nonces : prims_ok Q -> derived_ok (c_rtp c) ->
  rtps ds = map (fun x => srtp_packet Q (c_rtp c) (cl_hdr x) (cl_pay x) (cl_ssrc x) (cl_index x)) (map clear_of (SesSpec.sent h)) /\
  Forall (fun x => 12 <= zlen (cl_hdr x) /\ In (cl_ssrc x) (ssrcs decl)) (map clear_of (SesSpec.sent h)) /\
  forall i j x y b, nth_error (map clear_of (SesSpec.sent h)) i = Some x -> nth_error (map clear_of (SesSpec.sent h)) j = Some y ->
    nonces (c_rtp c) (cl_ssrc x) (cl_index x) b -> nonces (c_rtp c) (cl_ssrc y) (cl_index y) b -> i = j.
Proof.
  intros HP HD. destruct C55_parts as (M & _ & _ & _). destruct SEND as (_ & _ & RG & _ & _ & _ & _ & _ & _ & N48 & _).
  assert (Forall (fun kp => exists hb body, fst (snd kp) = hb ++ body /\ header_len (rc_hdr (snd (snd kp))) = zlen hb /\ 12 <= zlen hb /\
     sequence_number (rc_hdr (snd (snd kp))) = rc_seq (snd (snd kp)) mod U16 /\ In (ssrc (rc_hdr (snd (snd kp)))) (ssrcs decl)) (SesSpec.sent h)) as OKP.
  { apply Forall_forall. intros [k p] Hp. apply in_sent in Hp. cbn [snd]. destruct (C55_out _ _ Hp) as (ss & rtx & m & r & q0 & x & D & _ & _ & PK).
    pose proof (packet_in _ _ _ _ _ _ _ D PK) as IN. destruct PK as (hb & body & E1 & E2 & E3 & E4 & _). exists hb, body. repeat (split; [assumption|]).
    apply in_flat_map. eexists. split; [eapply nth_error_In, D|]. exact IN. }
  split; [|split].
  - rewrite map_map. clear - M OKP RG N48 HP HD. induction M as [|d [k [b r]] l l' HM _ IH]; [reflexivity|]. inversion OKP as [|? ? O1 O2]; subst. inversion N48 as [|? ? N1 N2]; subst.
    cbn [map]. f_equal; [|apply IH; assumption]. cbn [snd fst] in *. destruct O1 as (hb & body & -> & E2 & E3 & E4 & E5).
    rewrite Forall_forall in RG. specialize (RG _ E5). unfold clear_of. rewrite E2. cbn [cl_hdr cl_pay cl_ssrc cl_index].
    rewrite skip_header by reflexivity. unfold zlen at 1. rewrite Nat2Z.id, firstn_app, firstn_all, Nat.sub_diag, firstn_O, app_nil_r.
    unfold made in HM. cbn [fst snd] in HM. rewrite C18_protect_conforms in HM by assumption. congruence.
  - rewrite Forall_map. eapply Forall_impl; [|exact OKP]. intros [k [b r]] (hb & body & E1 & E2 & E3 & E4 & E5). cbn [snd fst clear_of cl_hdr cl_ssrc] in *.
    split; [|exact E5]. rewrite E1, E2. unfold zlen at 2. rewrite Nat2Z.id, firstn_app, firstn_all, Nat.sub_diag, firstn_O, app_nil_r. exact E3.
  - intros i j x y b Hx Hy X Y. rewrite nth_error_map in Hx, Hy.
    destruct (nth_error (SesSpec.sent h) i) as [[ki [bi ri]]|] eqn:Ei; [|discriminate]. destruct (nth_error (SesSpec.sent h) j) as [[kj [bj rj]]|] eqn:Ej; [|discriminate].
    injection Hx as <-. injection Hy as <-. cbn [cl_ssrc cl_index] in X, Y.
    rewrite Forall_forall in OKP, N48, RG. pose proof (OKP _ (nth_error_In _ _ Ei)) as (_ & _ & _ & _ & _ & _ & I1). pose proof (OKP _ (nth_error_In _ _ Ej)) as (_ & _ & _ & _ & _ & _ & I2).
    pose proof (N48 _ (nth_error_In _ _ Ei)) as J1. pose proof (N48 _ (nth_error_In _ _ Ej)) as J2. cbn [snd] in I1, I2, J1, J2.
    destruct (C18_iv_unique _ _ _ _ _ _ HD (RG _ I1) (RG _ I2) J1 J2 X Y) as [E1 E2].
    pose proof C55_nodup as ND. rewrite NoDup_nth_error in ND. apply ND.
    + rewrite !map_length. apply nth_error_Some. congruence.
    + rewrite !nth_error_map, Ei, Ej. cbn [option_map snd]. unfold pkey. cbn [snd]. congruence.
Qed.

(** The i-th RTCP datagram is SRTCP of some compound with index i modulo 2^31. *)
Theorem C55_rtcp_index : forall i d, nth_error (rtcps ds) i = Some d -> exists b, protected_as Q c d b (Z.of_nat i mod 2 ^ 31).
Proof. exact (proj1 (proj2 C55_parts)). Qed.

(** The transport-wide numbers of the session's packets count on from where they started: 16 bits, no gap, no repeat, over all its streams. *)
Theorem C55_transport_numbers : transport h = counting (w_tw w0) (length (transport h)).
Proof.
  destruct SEND as (ST & _ & _ & C1 & C2 & _ & _ & RUN & NF & _).
  pose proof (run_wrun P fresh cut Q ex al ps mtu _ _ _ _ _ RUN) as W. cbn [s_wr] in W.
  destruct (calls_parts _ C1) as (_ & _ & A3). destruct (calls_parts _ C2) as (_ & _ & B3).
  destruct (run_calls P fresh cut Q ex al ps mtu _ _ _ _ _ (proj2 (Forall_app _ _ _) (conj A3 (Forall_cons (SKeys c) I B3))) RUN) as [F1 _].
  exact (wrun_transport fresh cut ps decl mtu ex al _ _ _ _ _ (start_WX P decl al mw _ ST) F1 W NF).
Qed.

(** The keys and the SRTCP index at the end. *)
Lemma C55_end : exists c', s_ctx s = Some c' /\ same_keys c c' /\ c_index c' = zlen (rtcps ds) mod 2 ^ 31.
Proof.
  destruct SEND as (_ & _ & _ & C1 & C2 & _ & _ & RUN & _ & _ & CI).
  destruct (calls_parts _ C1) as (A1 & A2 & _). destruct (calls_parts _ C2) as (B1 & B2 & _).
  rewrite ses_run_app in RUN. destruct (ses_run P fresh cut Q ex al ps mtu (mkSes w0 None []) pre) as [[[s1 d1] h1]| |] eqn:E1; cbn [bind] in RUN; try discriminate.
  destruct (run_unkeyed P fresh cut Q ex al ps mtu _ _ _ _ _ E1 eq_refl A1 A2) as (_ & -> & _). cbn [SesModel.ses_run SesModel.ses_step bind] in RUN.
  destruct (ses_run P fresh cut Q ex al ps mtu (mkSes (s_wr s1) (Some c) (s_fb s1)) post) as [[[s2 d2] h2]| |] eqn:E2; cbn [bind] in RUN; try discriminate.
  injection RUN as <- <- _. cbn [app]. destruct (run_index fresh cut Q ex al ps mtu _ _ _ _ _ c E2 eq_refl ltac:(lia) B1 B2) as (c' & X1 & X2 & X3).
  exists c'. rewrite CI in X3. auto.
Qed.
Lemma C55_ssrcs : local_sender_ssrcs (w_streams (s_wr s)) = ssrcs decl.
Proof.
  destruct C55_parts as (_ & _ & _ & W). unfold local_sender_ssrcs, ssrcs.
  assert (forall k, match nth_error decl k with
    | Some (ss, rtx, _, _, _) => exists x, nth_error (w_streams (s_wr s)) k = Some x /\ x_ssrc x = ss /\ x_rtx x = rtx
    | None => nth_error (w_streams (s_wr s)) k = None end) as W'.
  { intro k. specialize (W k). destruct (nth_error decl k) as [[[[[ss rtx] m] r] q0]|]; [|apply W].
    destruct W as (_ & x & E & (a & HR & H1 & H2 & _)). exists x. split; [exact E|]. rewrite (r_ssrc _ _ _ HR), (r_rtx _ _ _ HR). auto. }
  revert W'. clear. generalize (w_streams (s_wr s)). induction decl as [|[[[[ss rtx] m] r] q0] dl IH]; intros xs W.
  - specialize (W 0%nat). cbn [nth_error] in W. destruct xs as [|x xs]; [reflexivity|discriminate].
  - pose proof (W 0%nat) as W0. cbn [nth_error] in W0. destruct W0 as (x & E & <- & <-). destruct xs as [|x' xs]; [discriminate|].
    injection E as ->. cbn [flat_map]. f_equal. apply (IH xs). intro k. exact (W (S k)).
Qed.

(** Feedback given to a session with keys: a peer reads each item once, or it still waits; however long the queue, however the calls are mixed. *)
Theorem C55_feedback_once : forall ops s' ds' h', 20 <= mtu <= 65536 -> Forall keeps_feedback ops ->
  Forall carried (s_fb s ++ pushed ops) -> ses_run P fresh cut Q ex al ps mtu s ops = Ok (s', ds', h') ->
  exists outs, peer_reads Q c (zlen (rtcps ds)) (rtcps ds') outs /\
    Permutation (flat_map items (s_fb s ++ pushed ops)) (flat_map items (concat outs) ++ flat_map items (s_fb s')).
Proof.
  intros ops s' ds' h' MT KF CA RUN. destruct C55_end as (c' & EC & SK & CI).
  destruct (run_feedback fresh cut Q ex al ps mtu MT _ _ _ _ _ _ RUN EC ltac:(rewrite CI; apply Z.mod_pos_bound; lia) KF (carried_sound _ CA)) as (_ & outs & PR & PM).
  exists outs. split; [|exact PM]. eapply peer_reads_keys; [exact SK|]. eapply peer_reads_mod; [|exact PR]. rewrite CI. apply Z.mod_mod. lia.
Qed.
(** Closing: no media any more; polls say goodbye for every SSRC of the session, each once, and then it is closed. *)
Theorem C55_goodbye : forall ops s' ds' h', 148 <= mtu <= 65536 -> w_closing (s_wr s) = false ->
  Forall (polls al) ops -> (length (ssrcs decl) <= length ops)%nat ->
  ses_run P fresh cut Q ex al ps mtu s (SClose :: ops) = Ok (s', ds', h') ->
  rtps ds' = [] /\ is_rtp_closed s' = true /\
  exists outs, peer_reads Q c (zlen (rtcps ds)) (rtcps ds') outs /\ Permutation (map IBye (ssrcs decl)) (flat_map items (concat outs)).
Proof.
  intros ops s' ds' h' MT CL PO LE RUN. destruct C55_end as (c' & EC & SK & CI). destruct SEND as (_ & _ & RG & _).
  cbn [SesModel.ses_run SesModel.ses_step] in RUN. rewrite CL in RUN.
  destruct (wstep P fresh cut ex al ps mtu (s_wr s) WClose) as [[w y]| |] eqn:E; cbn [bind fst snd] in RUN; try discriminate.
  assert (w_closing w = true) as CW by (cbn [WrModel.wstep] in E; rewrite CL in E; injection E as <- <-; reflexivity).
  rewrite C55_ssrcs in RUN. destruct (lists_spec (ssrcs decl)) as (L1 & L2 & L3).
  destruct (ses_run P fresh cut Q ex al ps mtu _ ops) as [[[s2 d2] h2]| |] eqn:E2; cbn [bind app] in RUN; try discriminate. injection RUN as <- <- _.
  set (q := map Bye (lists_from_iter (ssrcs decl))) in *.
  assert (Forall sound q) as S by (apply byes_sound; [exact L2|rewrite L1; exact RG]).
  assert (Forall (fits mtu) q) as F.
  { unfold q. rewrite Forall_map. eapply Forall_impl; [|exact L2]. intros l [_ LL]. unfold fits. cbn [words]. unfold zlen. dlia. }
  destruct (run_closing fresh cut Q ex al ps mtu ltac:(lia) _ _ _ _ _ _ E2 PO EC CW S F) as (W2 & _ & R2 & LF). cbn [s_fb s_wr] in W2, LF.
  assert (s_fb s2 = []) as FB.
  { destruct LF as [LF|LF]; [exact LF|]. unfold q in LF. rewrite map_length in LF. destruct (s_fb s2); [reflexivity|]. cbn [length] in LF. lia. }
  split; [exact R2|]. split; [unfold is_rtp_closed; rewrite W2, CW, FB; reflexivity|].
  assert (Forall keeps_feedback ops /\ pushed ops = []) as [KF PS].
  { clear - PO. induction PO as [|o ops HO _ [I1 I2]]; [split; [constructor|reflexivity]|]. destruct o; try contradiction. split; [constructor; [exact I|exact I1]|exact I2]. }
  assert (Forall sound (s_fb (mkSes w (s_ctx s) q) ++ pushed ops)) as S' by (rewrite PS, app_nil_r; exact S).
  destruct (run_feedback fresh cut Q ex al ps mtu ltac:(lia) _ _ _ _ _ _ E2 EC ltac:(rewrite CI; apply Z.mod_pos_bound; lia) KF S') as (_ & outs & PR & PM).
  exists outs. split; [eapply peer_reads_keys; [exact SK|]; eapply peer_reads_mod; [|exact PR]; rewrite CI; apply Z.mod_mod; lia|].
  rewrite FB, PS, app_nil_r in PM. cbn [flat_map s_fb] in PM. rewrite app_nil_r in PM. unfold q in PM. rewrite bye_items, L1 in PM. exact PM.
Qed.
End C55.

(** Before there are keys nothing leaves, and no stream is asked for a packet. *)
Theorem C55_silent_without_keys : forall P fresh cut Q ex al ps mtu (w0 : wr P) fb pre s ds h,
  Forall (ses_call ps) pre -> ses_run P fresh cut Q ex al ps mtu (mkSes w0 None fb) pre = Ok (s, ds, h) ->
  ds = [] /\ SesSpec.sent h = [].
Proof.
  intros P fresh cut Q ex al ps mtu w0 fb pre s ds h C1 RUN. destruct (calls_parts ps _ C1) as (A1 & A2 & _).
  exact (proj2 (run_unkeyed P fresh cut Q ex al ps mtu _ _ _ _ _ RUN eq_refl A1 A2)).
Qed.
Print Assumptions C55_fresh_nonces.
Print Assumptions C55_rtcp_index.
Print Assumptions C55_transport_numbers.
Print Assumptions C55_silent_without_keys.
Print Assumptions C55_feedback_once.
Print Assumptions C55_goodbye.

(** * The hypotheses can be met *)
Definition C55_ctx : ctx := mkCtx (Gcm (rep 3 12) (rep 1 16)) (Gcm (rep 5 12) (rep 2 16)) 0 [].
Definition C55_run (s : ses nat) (ops : list sop) : res (ses nat * list dgram * history) :=
  ses_run nat C54_fresh C54_cut toy C54_never 0 C54_ps 1200 s ops.
Definition C55_poll (now : Z) (k : nat) : sop := SPoll now (Some k) C54_map true.
Definition C55_pre : list sop :=
  [SCall (WWrite [97] (C54_audio 0 [1])); SCall (WWrite [118] (C54_video 1 [7; 8])); C55_poll 1000000 0; SCall WTimeout].
Definition C55_post : list sop :=
  [SCall (WStream 0 (XTimeout 1000000 true [99] None)); SCall (WStream 1 (XTimeout 1000000 false [99] (Some 96)));
   C55_poll 1000000 1; SFeedback [Sr (RtcpModel.SI 20 1 2 1 1) []] []; C55_poll 1000000 0; C55_poll 1000000 0; C55_poll 1000000 1; C55_poll 1000000 1].
Definition C55_all : ses nat * list dgram * history :=
  match C55_run (mkSes C54_w0 None []) (C55_pre ++ SKeys C55_ctx :: C55_post) with Ok r => r | _ => (mkSes C54_w0 None [], [], []) end.
Definition C55_s : ses nat := fst (fst C55_all).
Definition C55_ds : list dgram := snd (fst C55_all).
Definition C55_h : history := snd C55_all.
Lemma C55_ran : ses_run nat C54_fresh C54_cut toy C54_never 0 C54_ps 1200 (mkSes C54_w0 None []) (C55_pre ++ SKeys C55_ctx :: C55_post) = Ok (C55_s, C55_ds, C55_h).
Proof. vm_compute. reflexivity. Qed.
Example C55_example : sending C54_fresh C54_cut toy C54_never 0 C54_ps 1200 1200 C54_decl C54_w0 C55_pre C55_ctx C55_post C55_s C55_ds C55_h /\
  map (fun x => (cl_ssrc x, cl_index x, cl_pay x)) (map clear_of (SesSpec.sent C55_h)) = [(20, 900, [0; 7]); (10, 5, [0; 1]); (20, 901, [0; 8])] /\
  transport C55_h = [Some 70; Some 71; Some 72] /\ (length (rtps C55_ds), length (rtcps C55_ds)) = (3, 1)%nat /\ w_closing (s_wr C55_s) = false.
Proof.
  split; [|split; [vm_compute; reflexivity|split; [vm_compute; reflexivity|split; vm_compute; reflexivity]]].
  split; [|split; [|split; [|split; [|split; [|split; [|split; [|split; [|split; [|split]]]]]]]]].
  - split; [repeat constructor|]. split; [repeat constructor; cbn [In map d_mid]; intuition discriminate|]. split; [|reflexivity].
    constructor; [exists 0, 0; split; [reflexivity|split; [discriminate|lia]]|]. constructor; [exists 0, 0; split; [reflexivity|split; [discriminate|lia]]|constructor].
  - change (ssrcs C54_decl) with [10; 20; 21]. repeat constructor; cbn [In]; intuition discriminate.
  - change (ssrcs C54_decl) with [10; 20; 21]. repeat constructor; vm_compute; congruence.
  - repeat constructor; vm_compute; congruence.
  - repeat constructor; vm_compute; congruence.
  - repeat constructor.
  - lia.
  - exact C55_ran.
  - assert (forallb (fun a => match a with Sent _ _ _ n cs => n + zlen cs <=? U64 | _ => true end) (acts C55_h) = true) as F by (vm_compute; reflexivity).
    rewrite forallb_forall in F. apply Forall_forall. intros p Hp. specialize (F p Hp). destruct p; cbn [numbers_fit]; [lia|exact I].
  - assert (forallb (fun p => (0 <=? rc_seq (snd (snd p))) && (rc_seq (snd (snd p)) <? 2 ^ 48)) (SesSpec.sent C55_h) = true) as F by (vm_compute; reflexivity).
    rewrite forallb_forall in F. apply Forall_forall. intros p Hp. specialize (F p Hp). lia.
  - reflexivity.
Qed.
(** The close of that session: its goodbyes fit one datagram, and the peer reads them. *)
Example C55_goodbye_example : exists s' d h' b,
  C55_run C55_s (SClose :: [C55_poll 1000000 1; C55_poll 1000000 1; C55_poll 1000000 1]) = Ok (s', [DRtcp d], h') /\
  protected_as toy C55_ctx d b 1 /\ read_packet b = Ok [Bye [10; 20; 21]] /\ ssrcs C54_decl = [10; 20; 21].
Proof.
  do 3 eexists. exists [131; 203; 0; 3; 0; 0; 0; 10; 0; 0; 0; 20; 0; 0; 0; 21].
  split; [vm_compute; reflexivity|]. split; [|split; vm_compute; reflexivity]. exists [], (mkCtx (c_rtp C55_ctx) (c_rtcp C55_ctx) 2 []). vm_compute. reflexivity.
Qed.

(** * What is false *)
(** Application feedback given after the close that is too big for a datagram: goodbyes stay behind it, and the session never gets closed. *)
Theorem C55_close_ends_refuted : exists p, carried p /\ forall n, exists s h,
  C55_run (mkSes C54_w0 (Some C55_ctx) []) ([SClose; SFeedback [] [p]] ++ repeat (C55_poll 1000000 0) n) = Ok (s, [], h) /\ is_rtp_closed s = false.
Proof.
  exists (App 1 2 (rep 9 1200)). split.
  { apply carried_loose. split; [vm_compute; discriminate|]. split; [|intros []]. cbn [loose]. split; [red; unfold U32; lia|]. split; [red; unfold U32; lia|]. split.
    - unfold rep. apply Forall_forall. intros x Hx. apply repeat_spec in Hx. subst. split; lia.
    - intros [E _]. discriminate. }
  set (q := [App 1 2 (rep 9 1200); Bye [10; 20; 21]]).
  assert (forall w fb, w_closing w = true -> fb = q \/ fb = [Bye [10; 20; 21]; App 1 2 (rep 9 1200)] -> forall n, exists s h,
    C55_run (mkSes w (Some C55_ctx) fb) (repeat (C55_poll 1000000 0) n) = Ok (s, [], h) /\ is_rtp_closed s = false) as H.
  { intros w fb CL HF n. revert fb HF. induction n as [|n IH]; intros fb HF; cbn [repeat].
    - exists (mkSes w (Some C55_ctx) fb), []. split; [reflexivity|]. unfold is_rtp_closed. cbn [s_wr s_fb]. rewrite CL. destruct HF as [->| ->]; reflexivity.
    - destruct (IH q (or_introl eq_refl)) as (s & h & E & C). exists s, h. split; [|exact C].
      unfold C55_run in *. cbn [ses_run]. unfold C55_poll at 1. cbn [ses_step]. unfold poll. change (1000000 =? 0) with false. cbv iota. unfold feedback. cbn [s_ctx s_fb s_wr].
      assert (poll_feedback toy C55_ctx 1200 fb = Ok (None, q, C55_ctx)) as -> by (destruct HF as [->| ->]; vm_compute; reflexivity).
      cbn [bind option_map s_wr]. rewrite CL. cbn [bind]. rewrite E. reflexivity. }
  intro n. destruct (H (mkWr (w_medias C54_w0) (map (fun x => reset_buffers x 0) (w_streams C54_w0)) 70 true) [Bye [10; 20; 21]; App 1 2 (rep 9 1200)] eq_refl (or_intror eq_refl) n) as (s & h & E & C).
  exists s, ([(WClose, ONone)] ++ h). split; [|exact C]. unfold C55_run in *. cbn [app ses_run].
  match goal with |- context [ses_step ?a ?b ?c ?d ?e ?f ?g ?h ?i SClose] =>
    let r := eval vm_compute in (ses_step a b c d e f g h i SClose) in change (ses_step a b c d e f g h i SClose) with r end.
  cbn [bind]. cbn [ses_step bind s_wr s_ctx s_fb app]. change (C55_run) with C55_run in E.
  match type of E with ?x = _ => match goal with |- context [ses_run ?a ?b ?c ?d ?e ?f ?g ?h ?s ?o] => change (ses_run a b c d e f g h s o) with x end end.
  rewrite E. reflexivity.
Qed.
(** With the RTP API: two writes with one number are two packets with one SSRC and index, and other payloads: the cipher input is used twice. *)
Definition C55_write (b : Z) : wop := WStream 1 (XWrite (mkW 96 900 0 0 false ev0 false [b] 0 (rep 0 15) None)).
Theorem C55_fresh_nonces_rtp_mode_refuted : exists s ds h x y,
  C55_run (mkSes C54_w0 (Some C55_ctx) []) [SCall (C55_write 1); SCall (C55_write 2); SCall (WStream 1 (XTimeout 1000000 false [99] None)); C55_poll 1000000 1; C55_poll 1000000 1] = Ok (s, ds, h) /\
  map clear_of (SesSpec.sent h) = [x; y] /\ cl_ssrc x = cl_ssrc y /\ cl_index x = cl_index y /\ cl_pay x = [1] /\ cl_pay y = [2] /\ length (rtps ds) = 2%nat.
Proof. do 5 eexists. split; [vm_compute; reflexivity|]. split; [vm_compute; reflexivity|]. vm_compute. auto. Qed.
(** Feedback polled before there are keys is gone. *)
Theorem C55_feedback_waits_for_keys_refuted : exists s h,
  C55_run (mkSes C54_w0 None []) [SFeedback [] [Pli 1 2]; C55_poll 1000000 1; SKeys C55_ctx] = Ok (s, [], h) /\ s_fb s = [].
Proof. do 2 eexists. split; [vm_compute; reflexivity|]. reflexivity. Qed.
(** The packetizer keeps to the size it is told, but the datagram is bigger than the target MTU: the header is not counted. *)
Definition C55_whole (st : nat) (mtu : Z) (data : list Z) : nat * option (list (list Z)) := (st, if zlen data <=? mtu then Some [data] else None).
Theorem C55_target_mtu_refuted : exists s h d,
  ses_run nat C54_fresh C55_whole toy C54_never 0 C54_ps 1200 (mkSes C54_w0 (Some C55_ctx) [])
    [SCall (WWrite [118] (C54_video 1 (rep 7 1184))); SCall WTimeout; SCall (WStream 1 (XTimeout 1000000 false [99] None)); C55_poll 1000000 1] = Ok (s, [DRtp d], h) /\ 1200 < zlen d.
Proof. do 3 eexists. split; [vm_compute; reflexivity|]. vm_compute. reflexivity. Qed.
Print Assumptions C55_close_ends_refuted.
Print Assumptions C55_fresh_nonces_rtp_mode_refuted.
Print Assumptions C55_feedback_waits_for_keys_refuted.
Print Assumptions C55_target_mtu_refuted.

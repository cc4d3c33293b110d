(** The session: what it asked of its streams, and what SRTP made of their packets. *)
From Coq Require Import Sorting.Sorted.
From Verif Require Import Base BaseFacts RtcpModel SrtpModel SrtpSpec SeqModel MtimeModel ExtModel HeaderModel
  TxModel TxSpec TxProofs TxProofs2 WrModel WrSpec WrProofs WrProofs2 WrProofs3 SesModel SesSpec SesProofs.

Lemma sent_app h1 h2 : SesSpec.sent (h1 ++ h2) = SesSpec.sent h1 ++ SesSpec.sent h2. Proof. apply flat_map_app. Qed.
Lemma rtps_app a b : rtps (a ++ b) = rtps a ++ rtps b. Proof. apply flat_map_app. Qed.
Lemma rtcps_app a b : rtcps (a ++ b) = rtcps a ++ rtcps b. Proof. apply flat_map_app. Qed.
Definition one (d : option dgram) : list dgram := match d with Some d => [d] | None => [] end.

Lemma out_sent k h : out k h = map snd (filter (fun p => Nat.eqb (fst p) k) (SesSpec.sent h)).
Proof.
  induction h as [|[o y] h IH]; [reflexivity|]. change ((o, y) :: h) with ([(o, y)] ++ h). rewrite out_app, sent_app, filter_app, map_app, IH. f_equal.
  unfold out, SesSpec.sent. cbn [flat_map]. rewrite !app_nil_r. destruct o as [| |k' o| |]; try reflexivity. destruct y as [| |y|]; try reflexivity; [|destruct (Nat.eqb k' k); reflexivity..].
  destruct y; cbn [filter fst]; destruct (Nat.eqb k' k); reflexivity.
Qed.
Lemma packet_poll ex al x tw o x' tw' b r : txstep ex al x tw o = Ok (x', tw', YPacket b r) -> exists now m en ps, o = XPoll now m en ps.
Proof.
  destruct o; cbn [txstep]; try discriminate; eauto.
  - destruct (tx_timeout _ _ _ _ _); discriminate.
  - destruct (queue_state x now) as [[? ?]| |]; discriminate.
  - destruct (create_sr x now) as [[? ?]| |]; discriminate.
Qed.
Lemma protect_rtp_ctx Q c c' b h i : c_rtp c' = c_rtp c -> protect_rtp Q c' b h i = protect_rtp Q c b h i.
Proof. unfold protect_rtp. intros ->. reflexivity. Qed.
Lemma protect_rtcp_ctx Q c b o c' : protect_rtcp Q c b = Ok (o, c') ->
  c' = mkCtx (c_rtp c) (c_rtcp c) ((c_index c + 1) mod 2147483648) (c_scratch c).
Proof.
  unfold protect_rtcp. cbv zeta. destruct (U32 <=? _); [discriminate|]. destruct (rd32_at b 4); cbn [bind]; try discriminate.
  destruct (c_rtcp c); intro H;
    repeat match type of H with bind ?x _ = _ => destruct x; cbn [bind] in H; try discriminate H | (if ?b then _ else _) = _ => destruct b; try discriminate H end;
    injection H; intros; subst; reflexivity.
Qed.
(** What the feedback poll does with the context. *)
Lemma poll_feedback_ctx Q c mtu q o rest c' : SrtpModel.poll_feedback Q c mtu q = Ok (o, rest, c') ->
  match o with
  | None => c' = c
  | Some d => c' = mkCtx (c_rtp c) (c_rtcp c) ((c_index c + 1) mod 2147483648) (c_scratch c) /\ exists b, protect_rtcp Q c b = Ok (d, c')
  end.
Proof.
  unfold SrtpModel.poll_feedback. destruct q as [|p q]; [intros [= <- <- <-]; reflexivity|]. destruct (mtu <? 20); [discriminate|]. cbv zeta.
  destruct (write_packet _ _) as [[[bs ?] r]| |]; cbn [bind]; try discriminate. destruct (zlen bs =? 0); [intros [= <- <- <-]; reflexivity|].
  destruct (protect_rtcp Q c bs) as [[out c1]| |] eqn:E; cbn [bind]; try discriminate. destruct (zlen out <? mtu); [|discriminate].
  intros [= <- <- <-]. split; [exact (protect_rtcp_ctx _ _ _ _ _ E)|]. exists bs. exact E.
Qed.

Section M.
Variables (P : Type) (fresh : codec -> P) (cut : P -> Z -> list Z -> P * option (list (list Z))).
Variables (Q : prims) (ex : Z -> Z -> Z -> bool) (al : Z) (ps : list wparam) (mtu : Z).
Notation wstep := (wstep P fresh cut ex al ps mtu). Notation wrun := (wrun P fresh cut ex al ps mtu).
Notation ses_step := (ses_step P fresh cut Q ex al ps mtu). Notation ses_run := (ses_run P fresh cut Q ex al ps mtu).
Notation feedback := (feedback P Q mtu). Notation packet := (packet P fresh cut Q ex al ps mtu). Notation poll := (poll P fresh cut Q ex al ps mtu).

Lemma wrun_app a : forall w w1 h1 b w2 h2, wrun w a = Ok (w1, h1) -> wrun w1 b = Ok (w2, h2) -> wrun w (a ++ b) = Ok (w2, h1 ++ h2).
Proof.
  induction a as [|o a IH]; intros w w1 h1 b w2 h2; cbn [WrModel.wrun app]; [intros [= <- <-]; auto|].
  destruct (wstep w o) as [[w' y]| |]; cbn [bind fst snd]; try discriminate. destruct (wrun w' a) as [[w3 h3]| |] eqn:E; cbn [bind fst snd]; try discriminate.
  intros [= <- <-] H. erewrite IH by eassumption. reflexivity.
Qed.
Lemma wrun_one w o w' y : wstep w o = Ok (w', y) -> wrun w [o] = Ok (w', [(o, y)]).
Proof. intro H. cbn [WrModel.wrun]. rewrite H. reflexivity. Qed.
Lemma ses_run_app a : forall s b, ses_run s (a ++ b) =
  bind (ses_run s a) (fun q => let '(s1, d1, h1) := q in bind (ses_run s1 b) (fun q => let '(s2, d2, h2) := q in Ok (s2, d1 ++ d2, h1 ++ h2))).
Proof.
  induction a as [|o a IH]; intros s b; cbn [SesModel.ses_run app bind].
  { destruct (ses_run s b) as [[[? ?] ?]| |]; reflexivity. }
  destruct (ses_step s o) as [[[s1 d] h1]| |]; cbn [bind]; try reflexivity. rewrite IH.
  destruct (ses_run s1 a) as [[[s2 d2] h2]| |]; cbn [bind]; try reflexivity. destruct (ses_run s2 b) as [[[s3 d3] h3]| |]; cbn [bind]; try reflexivity.
  rewrite !app_assoc. reflexivity.
Qed.

Lemma feedback_wr s s1 d : feedback s = Ok (s1, d) -> s_wr s1 = s_wr s.
Proof.
  unfold SesModel.feedback. destruct (s_ctx s) as [c|].
  - destruct (SrtpModel.poll_feedback Q c mtu (s_fb s)) as [[[o rest] c']| |]; cbn [bind]; try discriminate. intros [= <- _]. reflexivity.
  - destruct (s_fb s) as [|p q]; [intros [= <- _]; reflexivity|]. destruct (mtu <? 20); [discriminate|].
    destruct (write_packet _ _) as [[[? ?] rest]| |]; cbn [bind]; try discriminate. intros [= <- _]. reflexivity.
Qed.
Lemma packet_wrun s now pick m en s1 d h1 : packet s now pick m en = Ok (s1, d, h1) ->
  wrun (s_wr s) (map fst h1) = Ok (s_wr s1, h1) /\ s_fb s1 = s_fb s /\ s_ctx s1 = s_ctx s /\
  (h1 = [] \/ exists k y, h1 = [(WStream k (XPoll now m en (map wp_par ps)), y)]).
Proof.
  unfold SesModel.packet. destruct (s_ctx s) as [c|] eqn:EC; [|intros [= <- <- <-]; rewrite EC; auto].
  destruct pick as [k|]; [|intros [= <- <- <-]; rewrite EC; auto].
  destruct (wstep (s_wr s) (WStream k (XPoll now m en (map wp_par ps)))) as [[w y]| |] eqn:E; cbn [bind]; try discriminate.
  assert (wrun (s_wr s) [WStream k (XPoll now m en (map wp_par ps))] = Ok (w, [(WStream k (XPoll now m en (map wp_par ps)), y)])) as W by (apply wrun_one, E).
  destruct y as [r|a e|[|b rc|q|sr|n|kf|rb]|]; try (intros [= <- <- <-]; cbn [map fst s_wr s_ctx s_fb]; eauto 8).
  destruct (protect_rtp _ _ _ _ _) as [dd| |]; cbn [bind]; try discriminate. intros [= <- <- <-]. cbn [map fst s_wr s_ctx s_fb]. eauto 8.
Qed.

(** What a step asks of media and streams, in the model of WrModel. *)
Lemma step_wrun s o s1 d h1 : ses_step s o = Ok (s1, d, h1) ->
  wrun (s_wr s) (map fst h1) = Ok (s_wr s1, h1) /\
  Forall (fun p => match o with
                   | SCall o' => fst p = o'
                   | SClose => fst p = WClose
                   | SPoll now _ m en => exists k, fst p = WStream k (XPoll now m en (map wp_par ps))
                   | _ => False end) h1.
Proof.
  destruct o as [o|f b| |c|now pick m en|]; cbn [SesModel.ses_step].
  - destruct (wstep (s_wr s) o) as [[w y]| |] eqn:E; cbn [bind fst snd]; try discriminate. intros [= <- <- <-]. cbn [map fst s_wr].
    split; [apply wrun_one, E|]. constructor; [reflexivity|constructor].
  - intros [= <- <- <-]. split; [reflexivity|constructor].
  - intros [= <- <- <-]. split; [reflexivity|constructor].
  - intros [= <- <- <-]. split; [reflexivity|constructor].
  - unfold SesModel.poll. destruct (now =? al); [intros [= <- <- <-]; split; [reflexivity|constructor]|].
    destruct (feedback s) as [[s2 d2]| |] eqn:E; cbn [bind]; try discriminate. apply feedback_wr in E.
    destruct d2; [intros [= <- <- <-]; cbn [map]; rewrite E; split; [reflexivity|constructor]|].
    destruct (w_closing (s_wr s2)); [intros [= <- <- <-]; cbn [map]; rewrite E; split; [reflexivity|constructor]|].
    intro H. destruct (packet_wrun _ _ _ _ _ _ _ _ H) as (W & _ & _ & X). rewrite <- E. split; [exact W|].
    destruct X as [->|(k & y & ->)]; [constructor|]. constructor; [exists k; reflexivity|constructor].
  - destruct (w_closing (s_wr s)) eqn:CL; [intros [= <- <- <-]; split; [reflexivity|constructor]|].
    destruct (wstep (s_wr s) WClose) as [[w y]| |] eqn:E; cbn [bind fst snd]; try discriminate. intros [= <- <- <-]. cbn [map fst s_wr].
    split; [apply wrun_one, E|]. constructor; [reflexivity|constructor].
Qed.
Lemma run_wrun ops : forall s s1 ds h, ses_run s ops = Ok (s1, ds, h) -> wrun (s_wr s) (map fst h) = Ok (s_wr s1, h).
Proof.
  induction ops as [|o ops IH]; intros s s1 ds h; cbn [SesModel.ses_run]; [intros [= <- <- <-]; reflexivity|].
  destruct (ses_step s o) as [[[s2 d] h1]| |] eqn:E; cbn [bind]; try discriminate. destruct (ses_run s2 ops) as [[[s3 d3] h3]| |] eqn:E2; cbn [bind]; try discriminate.
  intros [= <- <- <-]. destruct (step_wrun _ _ _ _ _ E) as [W _]. rewrite map_app. eapply wrun_app; [exact W|]. eapply IH, E2.
Qed.
Definition keyless (o : sop) : Prop := match o with SKeys _ => False | _ => True end.
Definition call_ok (o : sop) : Prop := match o with SCall o => frame_api ps o /\ sample_ok o | _ => True end.
Lemma run_calls ops : forall s s1 ds h, Forall call_ok ops -> ses_run s ops = Ok (s1, ds, h) ->
  Forall (frame_api ps) (map fst h) /\ Forall sample_ok (map fst h).
Proof.
  induction ops as [|o ops IH]; intros s s1 ds h F; cbn [SesModel.ses_run]; [intros [= <- <- <-]; split; constructor|].
  destruct (ses_step s o) as [[[s2 d] h1]| |] eqn:E; cbn [bind]; try discriminate. destruct (ses_run s2 ops) as [[[s3 d3] h3]| |] eqn:E2; cbn [bind]; try discriminate.
  intros [= <- <- <-]. inversion F as [|? ? F1 F2]; subst. destruct (step_wrun _ _ _ _ _ E) as [_ W]. destruct (IH _ _ _ _ F2 E2) as [I1 I2].
  rewrite !map_app, !Forall_app, !Forall_map. rewrite !Forall_map in I1, I2. rewrite Forall_forall in W.
  split; (split; [apply Forall_forall; intros p Hp; specialize (W p Hp); cbv beta in W|assumption]);
    (destruct o as [o| | | |now pick m en|]; try contradiction; [subst o; apply F1|destruct W as (k & ->); cbn; auto|rewrite W; exact Logic.I]).
Qed.

(** A step of the calls allowed sends a packet only in a poll with keys, and then SRTP makes the datagram of it. *)
Definition quiet_call (o : sop) : Prop := match o with SCall (WStream _ (XPoll _ _ _ _)) => False | _ => True end.
Lemma call_quiet w o w' y : wstep w o = Ok (w', y) -> quiet_call (SCall o) -> SesSpec.sent [(o, y)] = [].
Proof.
  intros H N. destruct o as [| |k o| |]; try reflexivity. cbn [WrModel.wstep] in H. destruct (nth_error _ _); [|injection H as _ <-; reflexivity].
  destruct (txstep ex al t (w_tw w) o) as [[[x' tw] yy]| |] eqn:T; cbn [bind] in H; try discriminate. injection H as _ <-.
  unfold SesSpec.sent. cbn [flat_map]. destruct yy; try reflexivity. destruct (packet_poll _ _ _ _ _ _ _ _ _ T) as (? & ? & ? & ? & ->). destruct N.
Qed.
Definition made (c : ctx) (d : list Z) (p : nat * (list Z * receipt)) : Prop :=
  protect_rtp Q c (fst (snd p)) (rc_hdr (snd (snd p))) (rc_seq (snd (snd p))) = Ok d.
Definition same_keys (c c' : ctx) : Prop := c_rtp c' = c_rtp c /\ c_rtcp c' = c_rtcp c.

Lemma step_keyed s o s1 d h1 c : ses_step s o = Ok (s1, d, h1) -> s_ctx s = Some c -> quiet_call o -> keyless o ->
  exists c', s_ctx s1 = Some c' /\ same_keys c c' /\ Forall2 (made c) (rtps (one d)) (SesSpec.sent h1) /\
    match d with
    | Some (DRtcp x) => c_index c' = (c_index c + 1) mod 2147483648 /\ exists b, protect_rtcp Q c b = Ok (x, c')
    | _ => c_index c' = c_index c
    end.
Proof.
  intros H EC QC KL. destruct o as [o|f b| |c1|now pick m en|]; cbn [SesModel.ses_step] in H; try contradiction.
  - destruct (wstep (s_wr s) o) as [[w y]| |] eqn:E; cbn [bind fst snd] in H; try discriminate. injection H as <- <- <-.
    exists c. cbn [s_ctx]. rewrite (call_quiet _ _ _ _ E QC). split; [exact EC|]. split; [split; reflexivity|]. split; [constructor|reflexivity].
  - injection H as <- <- <-. exists c. split; [exact EC|]. split; [split; reflexivity|]. split; [constructor|reflexivity].
  - injection H as <- <- <-. exists c. split; [exact EC|]. split; [split; reflexivity|]. split; [constructor|reflexivity].
  - unfold SesModel.poll in H. destruct (now =? al); [injection H as <- <- <-; exists c; split; [exact EC|]; split; [split; reflexivity|]; split; [constructor|reflexivity]|].
    unfold SesModel.feedback in H. rewrite EC in H. destruct (SrtpModel.poll_feedback Q c mtu (s_fb s)) as [[[o rest] c']| |] eqn:EF; cbn [bind] in H; try discriminate.
    pose proof (poll_feedback_ctx _ _ _ _ _ _ _ EF) as X. destruct o as [x|]; cbn [option_map] in H.
    { injection H as <- <- <-. destruct X as [-> X]. eexists. cbn [s_ctx]. split; [reflexivity|]. split; [split; reflexivity|]. split; [constructor|]. split; [reflexivity|exact X]. }
    subst c'. cbn [s_wr] in H. destruct (w_closing (s_wr s)); [injection H as <- <- <-; exists c; split; [reflexivity|]; split; [split; reflexivity|]; split; [constructor|reflexivity]|].
    destruct (packet_wrun _ _ _ _ _ _ _ _ H) as (_ & _ & CC & _). cbn [s_ctx] in CC. exists c. split; [exact CC|]. split; [split; reflexivity|].
    unfold SesModel.packet in H. cbn [s_ctx s_wr s_fb] in H. destruct pick as [k|]; [|injection H as <- <- <-; split; [constructor|reflexivity]].
    destruct (wstep (s_wr s) _) as [[w y]| |]; cbn [bind] in H; try discriminate.
    destruct y as [r|a e|[|b rc|q|sr|n|kf|rb]|]; try (injection H as <- <- <-; split; [constructor|reflexivity]).
    destruct (protect_rtp Q c b (rc_hdr rc) (rc_seq rc)) as [dd| |] eqn:EP; cbn [bind] in H; try discriminate. injection H as <- <- <-.
    split; [|reflexivity]. cbn. constructor; [exact EP|constructor].
  - destruct (w_closing (s_wr s)); [injection H as <- <- <-; exists c; split; [exact EC|]; split; [split; reflexivity|]; split; [constructor|reflexivity]|].
    destruct (wstep (s_wr s) WClose) as [[w y]| |] eqn:E; cbn [bind fst snd] in H; try discriminate. injection H as <- <- <-.
    exists c. split; [exact EC|]. split; [split; reflexivity|]. split; [constructor|reflexivity].
Qed.

Lemma run_keyed ops : forall s s1 ds h c, ses_run s ops = Ok (s1, ds, h) -> s_ctx s = Some c -> 0 <= c_index c < 2147483648 -> Forall quiet_call ops -> Forall keyless ops ->
  (exists c', s_ctx s1 = Some c' /\ same_keys c c') /\ Forall2 (made c) (rtps ds) (SesSpec.sent h) /\
  forall i x, nth_error (rtcps ds) i = Some x -> exists b, protected_as Q c x b ((c_index c + Z.of_nat i) mod 2147483648).
Proof.
  induction ops as [|o ops IH]; intros s s1 ds h c H EC CI QC KL; cbn [SesModel.ses_run] in H.
  { injection H as <- <- <-. split; [exists c; split; [exact EC|split; reflexivity]|]. split; [constructor|]. intros [|i] x; discriminate. }
  destruct (ses_step s o) as [[[s2 d] h1]| |] eqn:E; cbn [bind] in H; try discriminate. destruct (ses_run s2 ops) as [[[s3 d3] h3]| |] eqn:E2; cbn [bind] in H; try discriminate.
  injection H as <- <- <-. inversion QC; subst. inversion KL; subst.
  destruct (step_keyed _ _ _ _ _ _ E EC) as (c' & EC' & [K1 K2] & F & D); try assumption.
  assert (0 <= c_index c' < 2147483648) as CI' by (destruct d as [[x|x]|]; [lia|destruct D as [-> _]; apply Z.mod_pos_bound; lia|lia]).
  destruct (IH _ _ _ _ _ E2 EC' CI') as ((c2 & EC2 & [K3 K4]) & F2 & D2); try assumption.
  split; [exists c2; split; [exact EC2|split; congruence]|]. change (match d with Some d0 => [d0] | None => [] end) with (one d). split.
  { rewrite rtps_app, sent_app. apply Forall2_app; [exact F|]. clear - F2 K1. induction F2 as [|x p l l' M _ IH]; constructor; [|exact IH].
    unfold made in *. rewrite <- M. symmetry. apply protect_rtp_ctx. exact K1. }
  assert (forall i x, nth_error (rtcps d3) i = Some x -> exists b, protected_as Q c x b ((c_index c' + Z.of_nat i) mod 2147483648)) as D3.
  { intros i x Hx. destruct (D2 _ _ Hx) as (b & sc & c3 & Y). exists b, sc, c3. rewrite <- K1, <- K2. exact Y. }
  intros i x. rewrite rtcps_app. destruct d as [[y|y]|]; cbn [one rtcps flat_map app]; [rewrite <- D; apply D3| |rewrite <- D; apply D3].
  destruct D as [D (b & PR)]. destruct i as [|i]; cbn [nth_error].
  - intros [= <-]. exists b, (c_scratch c), c'. rewrite Z.add_0_r, Z.mod_small by lia. destruct c; exact PR.
  - intro Hx. destruct (D3 _ _ Hx) as (b' & Y). exists b'. replace ((c_index c + Z.of_nat (S i)) mod 2147483648) with ((c_index c' + Z.of_nat i) mod 2147483648); [exact Y|].
    rewrite D, Zplus_mod_idemp_l. f_equal. lia.
Qed.
(** Without keys nothing leaves. *)
Lemma run_unkeyed ops : forall s s1 ds h, ses_run s ops = Ok (s1, ds, h) -> s_ctx s = None -> Forall quiet_call ops -> Forall keyless ops ->
  s_ctx s1 = None /\ ds = [] /\ SesSpec.sent h = [].
Proof.
  induction ops as [|o ops IH]; intros s s1 ds h H EC QC KL; cbn [SesModel.ses_run] in H.
  { injection H as <- <- <-. auto. }
  destruct (ses_step s o) as [[[s2 d] h1]| |] eqn:E; cbn [bind] in H; try discriminate. destruct (ses_run s2 ops) as [[[s3 d3] h3]| |] eqn:E2; cbn [bind] in H; try discriminate.
  injection H as <- <- <-. inversion QC; subst. inversion KL; subst.
  assert (s_ctx s2 = None /\ d = None /\ SesSpec.sent h1 = []) as (A & B & C).
  { destruct o as [o|f b| |c1|now pick m en|]; cbn [SesModel.ses_step] in E; try contradiction; try (injection E as <- <- <-; auto).
    - destruct (wstep (s_wr s) o) as [[w y]| |] eqn:E1; cbn [bind fst snd] in E; try discriminate. injection E as <- <- <-.
      split; [exact EC|]. split; [reflexivity|]. eapply call_quiet; eassumption.
    - unfold SesModel.poll in E. destruct (now =? al); [injection E as <- <- <-; auto|]. unfold SesModel.feedback in E. rewrite EC in E.
      assert (forall s', s_ctx s' = None -> (if w_closing (s_wr s') then Ok (s', None, []) else packet s' now pick m en) = Ok (s2, d, h1) ->
        s_ctx s2 = None /\ d = None /\ SesSpec.sent h1 = []) as X.
      { intros s' C'. destruct (w_closing _); [intros [= <- <- <-]; auto|]. unfold SesModel.packet. rewrite C'. intros [= <- <- <-]. auto. }
      destruct (s_fb s) as [|p q]; cbn [bind] in E; [apply (X s EC), E|]. destruct (mtu <? 20); [discriminate|].
      destruct (write_packet _ _) as [[[? ?] rest]| |]; cbn [bind] in E; try discriminate. eapply X; [|exact E]. reflexivity.
    - destruct (w_closing (s_wr s)); [injection E as <- <- <-; auto|].
      destruct (wstep (s_wr s) WClose) as [[w y]| |]; cbn [bind fst snd] in E; try discriminate. injection E as <- <- <-. auto. }
  destruct (IH _ _ _ _ E2 A) as (A2 & B2 & C2); try assumption. subst d d3. rewrite sent_app, C, C2. auto.
Qed.
End M.

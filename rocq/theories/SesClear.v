(** C55: clear_feedback. *)
From Verif Require Import Base BaseFacts RtcpModel SrtpModel ExtModel TxModel WrModel WrProps SesModel SesProps.

(** The calls that put no feedback into the queue. *)
Definition adds_none (o : sop) : Prop := match o with SFeedback _ _ | SClose => False | _ => True end.
Definition is_rtp (d : dgram) : Prop := match d with DRtp _ => True | DRtcp _ => False end.

Section S.
Variables (P : Type) (fresh : codec -> P) (cut : P -> Z -> list Z -> P * option (list (list Z))).
Variables (Q : prims) (ex : Z -> Z -> Z -> bool) (al : Z) (ps : list wparam) (mtu : Z).
Lemma fb_nil : forall (s s' : ses P) d, s_fb s = [] -> feedback P Q mtu s = Ok (s', d) -> d = None /\ s_fb s' = [].
Proof.
  intros s s' d F H. unfold feedback in H. rewrite F in H. destruct (s_ctx s); cbn in H; injection H as <- <-; auto.
Qed.
Lemma packet_rtp : forall (s s' : ses P) now pick m en d h, s_fb s = [] -> packet P fresh cut Q ex al ps mtu s now pick m en = Ok (s', d, h) ->
  s_fb s' = [] /\ match d with Some x => is_rtp x | None => True end.
Proof.
  intros s s' now pick m en d h F H. unfold packet in H. destruct (s_ctx s) as [c|]; [|injection H as <- <- _; auto].
  destruct pick as [k|]; [|injection H as <- <- _; auto].
  match type of H with bind ?x _ = _ => destruct x as [[w y]| |]; try discriminate end. cbn [bind] in H.
  destruct y as [| |[]|]; try (injection H as <- <- _; cbn; auto; fail).
  all: match type of H with bind ?x _ = _ => destruct x as [dd| |]; try discriminate end; cbn [bind] in H; injection H as <- <- _; cbn; auto.
Qed.
Lemma cleared_step : forall (s s' : ses P) o d h, s_fb s = [] -> adds_none o -> ses_step P fresh cut Q ex al ps mtu s o = Ok (s', d, h) ->
  s_fb s' = [] /\ match d with Some x => is_rtp x | None => True end.
Proof.
  intros s s' o d h F A H. destruct o as [o|f b| |c|now pick m en|]; try contradiction; cbn [ses_step] in H.
  - match type of H with bind ?x _ = _ => destruct x as [[w y]| |]; try discriminate end. cbn [bind fst] in H. injection H as <- <- _. auto.
  - injection H as <- <- _. auto.
  - injection H as <- <- _. auto.
  - unfold poll in H. destruct (now =? al); [injection H as <- <- _; auto|].
    destruct (feedback P Q mtu s) as [[s1 d1]| |] eqn:E; try discriminate. cbn [bind] in H. destruct (fb_nil _ _ _ F E) as [-> F1].
    destruct (w_closing (s_wr s1)); [injection H as <- <- _; auto|]. eapply packet_rtp; eassumption.
Qed.
Lemma cleared_run : forall ops (s s' : ses P) ds h, s_fb s = [] -> Forall adds_none ops ->
  ses_run P fresh cut Q ex al ps mtu s ops = Ok (s', ds, h) -> Forall is_rtp ds.
Proof.
  induction ops as [|o ops IH]; intros s s' ds h F A H; cbn [ses_run] in H; [injection H as _ <- _; constructor|].
  inversion A as [|? ? A1 A2]; subst.
  destruct (ses_step P fresh cut Q ex al ps mtu s o) as [[[s1 d] h1]| |] eqn:E; try discriminate. cbn [bind] in H.
  destruct (ses_run P fresh cut Q ex al ps mtu s1 ops) as [[[s2 ds2] h2]| |] eqn:E2; try discriminate. cbn [bind] in H. injection H as _ <- _.
  destruct (cleared_step _ _ _ _ _ F A1 E) as (F1 & D). apply Forall_app. split; [destruct d; [constructor; [exact D|constructor]|constructor]|].
  eapply IH; eassumption.
Qed.
End S.

(** After clear_feedback no RTCP leaves until feedback is pushed or the session is closed. *)
Theorem C55_cleared_is_gone : forall P fresh cut Q ex al ps mtu (s : ses P) ops s' ds h, Forall adds_none ops ->
  ses_run P fresh cut Q ex al ps mtu s (SClear :: ops) = Ok (s', ds, h) -> Forall is_rtp ds.
Proof.
  intros P fresh cut Q ex al ps mtu s ops s' ds h A H. cbn [ses_run ses_step bind] in H.
  destruct (ses_run P fresh cut Q ex al ps mtu _ ops) as [[[s2 ds2] h2]| |] eqn:E; try discriminate. cbn [bind app] in H. injection H as _ <- _.
  eapply cleared_run; [|exact A|exact E]. reflexivity.
Qed.
(** What was pushed before is not sent (it is, without the call). *)
Example cleared_ex : exists s1 s2 h1 h2 d,
  C55_run (mkSes C54_w0 (Some C55_ctx) []) [SFeedback [] [Pli 1 2]; SClear; C55_poll 1000000 1] = Ok (s1, [], h1) /\
  C55_run (mkSes C54_w0 (Some C55_ctx) []) [SFeedback [] [Pli 1 2]; C55_poll 1000000 1] = Ok (s2, [DRtcp d], h2).
Proof. do 5 eexists. split; vm_compute; reflexivity. Qed.
Print Assumptions C55_cleared_is_gone.

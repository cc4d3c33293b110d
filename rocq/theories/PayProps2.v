(** C35: the feedback a remote m-line asks for. *)
From Verif Require Import Base BaseFacts PayModel PaySpec PayProofs.

(** The m-line has the line [a=rtcp-fb:<pt> <what>]. *)
Definition says (attrs : list attr) (pt : Z) (what : fb) : Prop := In (RtcpFb pt what) attrs.

Lemma fb_lines attrs pt v : In (pt, v) (filter_map fb_of attrs) <-> says attrs pt v.
Proof.
  unfold says. induction attrs as [|a l IH]; [reflexivity|]. cbn [filter_map In].
  destruct a; cbn [fb_of In]; rewrite IH; intuition congruence.
Qed.

Definition flag (v : fb) (p : pp) : bool :=
  match v with Remb => p_remb p | Tcc => p_tcc p | Fir => p_fir p | Nack => p_nack p | Pli => p_pli p | OtherFb => false end.
Definition same (p q : pp) : Prop := p_pt p = p_pt q /\ s_codec (p_spec p) = s_codec (p_spec q).
Lemma apply_fb_flag p pt v w : v <> OtherFb -> same (apply_fb p (pt, w)) p /\
  (flag v (apply_fb p (pt, w)) = true <-> flag v p = true \/ (pt = p_pt p /\ w = v)).
Proof.
  intro O. unfold apply_fb. destruct (Z.eqb_spec pt (p_pt p)) as [->|N]; [|split; [split; reflexivity|intuition congruence]].
  destruct p as [a b c t n pl fi re lk], w, v; cbn; (split; [split; reflexivity|]); intuition congruence.
Qed.
Lemma fbs_flag v fbs : v <> OtherFb -> forall p, same (fold_left apply_fb fbs p) p /\
  (flag v (fold_left apply_fb fbs p) = true <-> flag v p = true \/ In (p_pt p, v) fbs).
Proof.
  intro O. induction fbs as [|[pt w] l IH]; intro p; cbn [fold_left In]; [split; [split; reflexivity|tauto]|].
  destruct (apply_fb_flag p pt v w O) as ((S1 & S2) & F). destruct (IH (apply_fb p (pt, w))) as ((T1 & T2) & G).
  split; [split; congruence|]. rewrite G, F, S1. intuition congruence.
Qed.
Lemma fmtp_flag maps v l p : same (apply_fmtp maps p l) p /\ flag v (apply_fmtp maps p l) = flag v p.
Proof.
  destruct l as [pt vs]. unfold apply_fmtp.
  set (p1 := if pt =? p_pt p then _ else p).
  assert (same p1 p /\ flag v p1 = flag v p) as (A & B) by (unfold p1; destruct (pt =? p_pt p); [|split; [split|]; reflexivity]; destruct p, v; repeat split).
  clearbody p1. assert (forall vs q, let q' := fold_left (fun p q => match q with
    | Apt v => if (v =? p_pt p) && existsb (fun m => (fst m =? pt) && codec_beq (fst (fst (snd m))) Rtx) maps
               then set_pts p (p_pt p) (Some pt) (p_locked p) else p
    | _ => p end) vs q in same q' q /\ flag v q' = flag v q) as K.
  { clear. induction vs as [|a l IH]; intro q; cbn [fold_left]; [split; [split|]; reflexivity|]. cbv zeta in *.
    match goal with |- same (fold_left ?f l ?x) q /\ _ => specialize (IH x); destruct IH as ((A & B) & C); assert (same x q /\ flag v x = flag v q) as ((D & E) & F) end.
    { destruct a; try (split; [split|]; reflexivity). destruct (_ && _); [|split; [split|]; reflexivity]. destruct q, v; repeat split. }
    split; [split|]; congruence. }
  destruct (K vs p1) as ((C & D) & E). destruct A as (A1 & A2). split; [split|]; congruence.
Qed.
Lemma fmtps_flag maps v ls : forall p, same (fold_left (apply_fmtp maps) ls p) p /\ flag v (fold_left (apply_fmtp maps) ls p) = flag v p.
Proof.
  induction ls as [|l r IH]; intro p; cbn [fold_left]; [split; [split|]; reflexivity|].
  destruct (IH (apply_fmtp maps p l)) as ((A & B) & C). destruct (fmtp_flag maps v l p) as ((D & E) & F). split; [split|]; congruence.
Qed.
Lemma flags_of pts attrs p v : v <> OtherFb -> In p (rtp_params pts attrs) ->
  (flag v p = true <-> (match v with Tcc => True | _ => is_video (s_codec (p_spec p)) = true end) \/ says attrs (p_pt p) v).
Proof.
  intros O I. unfold rtp_params in I. apply in_map_iff in I as ([pt [[c k] h]] & <- & _).
  set (q := fold_left (apply_fmtp _) _ _).
  destruct (fbs_flag v (filter_map fb_of attrs) O q) as ((A & B) & F). rewrite F, A, B, fb_lines.
  destruct (fmtps_flag (statics pts (filter_map map_of attrs)) v (filter_map fmtp_of attrs) (pp_new pt (spec_of_map c k h))) as ((C & D) & E).
  fold q in C, D, E. rewrite E, D. clear - O. set (X := says _ _ _). unfold pp_new. cbv zeta. destruct v; cbn [flag p_remb p_tcc p_fir p_nack p_pli p_spec]; try tauto; try congruence; destruct (is_video _); intuition congruence.
Qed.

(** What the peer is taken to understand: NACK, PLI, FIR and REMB for video always and otherwise when the line says
    so; transport-wide feedback always. *)
Theorem C35_feedback_flags : forall pts attrs p, In p (rtp_params pts attrs) ->
  (p_remb p = true <-> is_video (s_codec (p_spec p)) = true \/ says attrs (p_pt p) Remb) /\
  (p_nack p = true <-> is_video (s_codec (p_spec p)) = true \/ says attrs (p_pt p) Nack) /\
  (p_pli p = true <-> is_video (s_codec (p_spec p)) = true \/ says attrs (p_pt p) Pli) /\
  (p_fir p = true <-> is_video (s_codec (p_spec p)) = true \/ says attrs (p_pt p) Fir) /\
  p_tcc p = true.
Proof.
  intros pts attrs p I.
  pose proof (flags_of pts attrs p Remb ltac:(discriminate) I) as A. pose proof (flags_of pts attrs p Nack ltac:(discriminate) I) as B.
  pose proof (flags_of pts attrs p Pli ltac:(discriminate) I) as C. pose proof (flags_of pts attrs p Fir ltac:(discriminate) I) as D.
  pose proof (flags_of pts attrs p Tcc ltac:(discriminate) I) as E. cbn [flag] in *. tauto.
Qed.
Print Assumptions C35_feedback_flags.
(** An audio line that asks for NACK, FIR and REMB *)
Example C35_feedback_case : exists p, In p (rtp_params [111] [RtpMap 111 Opus 48000 (Some 2); RtcpFb 111 Nack; RtcpFb 111 Fir; RtcpFb 111 Remb]) /\
  p_nack p = true /\ p_fir p = true /\ p_remb p = true /\ p_pli p = false.
Proof. eexists. split; [left; reflexivity|]. repeat split. Qed.
(** So a peer whose m-line has no rtcp-fb line at all is still taken to understand NACK, PLI, FIR,
    REMB and transport-wide feedback. *)
Theorem C35_feedback_only_if_listed_refuted : exists pts attrs p, In p (rtp_params pts attrs) /\
  (forall v, ~ says attrs (p_pt p) v) /\ p_nack p = true /\ p_pli p = true /\ p_fir p = true /\ p_remb p = true /\ p_tcc p = true.
Proof.
  exists [96], [RtpMap 96 Vp8 90000 None]. eexists. split; [left; reflexivity|]. split; [intros v [H|[]]; discriminate|repeat split].
Qed.
Print Assumptions C35_feedback_only_if_listed_refuted.

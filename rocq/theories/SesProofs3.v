(** The transport-wide numbers of the session. *)
From Verif Require Import Base BaseFacts RtcpModel SrtpModel SrtpSpec SeqModel MtimeModel ExtModel HeaderModel
  TxModel TxSpec TxProofs TxProofs2 TxProofs4 WrModel WrSpec WrProofs WrProofs2 WrProofs3 SesModel SesSpec SesProofs SesProofs2.

Lemma transport_app h1 h2 : transport (h1 ++ h2) = transport h1 ++ transport h2. Proof. apply flat_map_app. Qed.
Lemma counting_app n : forall t m, counting t (n + m) = counting t n ++ counting (t + Z.of_nat n) m.
Proof.
  induction n as [|n IH]; intros t m; cbn [counting Nat.add app].
  - f_equal. lia.
  - f_equal. rewrite IH. f_equal. f_equal. lia.
Qed.
Lemma step_transport k a o y a' : sstep a o y a' ->
  transport [(WStream k o, OStream y)] = counting (a_twcc a) (length (transport [(WStream k o, OStream y)])) /\
  a_twcc a' = a_twcc a + zlen (transport [(WStream k o, OStream y)]).
Proof.
  intro H. inversion H as [| |now m en ps0 y0 a1 P| | | | | | | |o' y' K1 K2]; subst;
    try (split; [reflexivity|cbn [transport flat_map]; rewrite ?zlen_nil, ?Z.add_0_r; reflexivity]).
  - destruct en.
    + inversion P; subst; (split; [reflexivity|cbn [after a_twcc b2z]; unfold transport, zlen; cbn [flat_map app length Z.of_nat]; lia]).
    + inversion P; subst; (split; [reflexivity|cbn [after a_twcc b2z]; unfold transport, zlen; cbn [flat_map app length Z.of_nat]; lia]).
  - assert (transport [(WStream k o, OStream y)] = []) as -> by (destruct o; try contradiction; reflexivity).
    split; [reflexivity|]. rewrite zlen_nil. lia.
Qed.

Section M.
Context {P : Type} (fresh : codec -> P) (cut : P -> Z -> list Z -> P * option (list (list Z))).
Variables (ps : list wparam) (decl : decls) (mtu : Z) (ex : Z -> Z -> Z -> bool) (al : Z).
Local Notation wstep := (WrModel.wstep P fresh cut ex al ps mtu).
Local Notation wrun := (WrModel.wrun P fresh cut ex al ps mtu).

Lemma wstep_transport w h o w' y : WX P decl w h -> frame_api ps o -> wstep w o = Ok (w', y) ->
  transport [(o, y)] = counting (w_tw w) (length (transport [(o, y)])) /\ w_tw w' = w_tw w + zlen (transport [(o, y)]).
Proof.
  intros HX FA H.
  assert (w_tw w' = w_tw w -> transport [(o, y)] = [] -> transport [(o, y)] = counting (w_tw w) (length (transport [(o, y)])) /\ w_tw w' = w_tw w + zlen (transport [(o, y)])) as Z0.
  { intros E1 E2. rewrite E1, E2. split; [reflexivity|]. rewrite zlen_nil. lia. }
  destruct o as [m s| |k o|m r|]; cbn [WrModel.wstep] in H.
  - destruct (write_media _ _ _ _ _) as [[ds e]|]; injection H as <- <-; apply Z0; reflexivity.
  - destruct (w_closing w); [injection H as <- <-; apply Z0; reflexivity|].
    destruct (pay_all P fresh cut ps mtu (w_medias w) (w_streams w)) as [[[[ds xs] a] e]| |]; cbn [bind] in H; try discriminate. injection H as <- <-. apply Z0; reflexivity.
  - destruct (nth_error (w_streams w) k) as [x|] eqn:NX.
    2:{ injection H as <- <-. apply Z0; [reflexivity|]. destruct o as [| |? ? en ?| | | | | | | | | | |]; try reflexivity. destruct en; reflexivity. }
    destruct (txstep ex al x (w_tw w) o) as [[[x' tw] yy]| |] eqn:T; cbn [bind] in H; try discriminate. injection H as <- <-. cbn [w_tw].
    specialize (HX k). cbv beta in HX. destruct (nth_error decl k) as [[[[[ss rtx] m] r] q0]|]; [|destruct HX as [HX _]; congruence].
    destruct HX as (_ & x0 & E & (a & HR & _)). rewrite NX in E. injection E as <-.
    assert (op_ok o) as OK by (destruct o; cbn [frame_api] in FA; try tauto; cbn [op_ok]; tauto).
    destruct (step_ok _ _ _ _ _ _ _ _ _ HR OK T) as (a' & S & HR').
    destruct (step_transport k _ _ _ _ S) as [T1 T2]. rewrite (r_twcc _ _ _ HR), (r_twcc _ _ _ HR'). split; assumption.
  - injection H as <- <-. apply Z0; reflexivity.
  - destruct (w_closing w); injection H as <- <-; apply Z0; reflexivity.
Qed.
Lemma wrun_transport ops : forall w h w' h', WX P decl w h -> Forall (frame_api ps) ops -> wrun w ops = Ok (w', h') -> Forall numbers_fit (acts h') ->
  transport h' = counting (w_tw w) (length (transport h')).
Proof.
  induction ops as [|o ops IH]; intros w h w' h' HI FA H NF; cbn [WrModel.wrun] in H.
  { injection H as <- <-. reflexivity. }
  destruct (wstep w o) as [[w1 y]| |] eqn:E; cbn [bind fst snd] in H; try discriminate.
  destruct (wrun w1 ops) as [[w2 h2]| |] eqn:E2; cbn [bind fst snd] in H; try discriminate. injection H as <- <-.
  inversion FA; subst. change ((o, y) :: h2) with ([(o, y)] ++ h2) in NF |- *. rewrite acts_app in NF. apply Forall_app in NF as [N1 N2].
  destruct (wstep_transport _ _ _ _ _ HI ltac:(eassumption) E) as [T1 T2].
  pose proof (step_WX P fresh cut ps decl mtu ex al _ _ _ _ _ HI ltac:(eassumption) E N1) as HI'.
  specialize (IH _ _ _ _ HI' ltac:(eassumption) E2 N2). rewrite transport_app, app_length, counting_app.
  rewrite <- T1. f_equal. rewrite IH at 1. rewrite T2. unfold zlen. reflexivity.
Qed.
End M.

(** The invariant of a history of the frame API. *)
From Verif Require Import Base BaseFacts SeqModel MtimeModel SendQueueModel EvictModel Vp8Model ExtModel HeaderModel NackModel
  TxModel TxSpec TxProofs TxProofs2 TxProofs3 TxProofs4 WrModel WrSpec WrProofs WrProofs2 WrProofs3.

Section M.
Variables (P : Type) (fresh : codec -> P) (cut : P -> Z -> list Z -> P * option (list (list Z))).
Variables (ps : list wparam) (kinds : list (list Z * bool)) (decl : decls) (mtu : Z) (ex : Z -> Z -> Z -> bool) (al : Z).
Hypotheses (REAL : Forall (fun p => real (wp_codec p)) ps) (MTU : 16 <= mtu).
Notation pay_media := (pay_media P fresh cut). Notation pay_all := (pay_all P fresh cut).
Notation wstep := (wstep P fresh cut ex al ps mtu). Notation wrun := (wrun P fresh cut ex al ps mtu).
Notation MI := (MI P fresh cut ps mtu).

Record INV (w : wr P) (h : history) : Prop := {
  i_nd : NoDup (map d_mid (w_medias w));
  i_kinds : kinds_of w = kinds;
  i_media : Forall (fun d => MI d (accepted (d_mid d) h) (acts h)) (w_medias w);
  i_ss : SSI ps kinds decl (w_streams w) (w_tw w) (acts h) (fun k => out k h) (w_closing w);
  i_right : Forall (right decl) (acts h) }.

(** * write *)
Definition written (w : wr P) (m : list Z) (s : sample) : option (media P * option werr) :=
  match find (fun d => id_eq (d_mid d) m) (w_medias w) with
  | None => None
  | Some d => Some (write1 P ps d s)
  end.
Lemma write_split l m s l' e : write_media P ps l m s = Some (l', e) ->
  exists l1 d l2, l = l1 ++ d :: l2 /\ d_mid d = m /\ l' = l1 ++ fst (write1 P ps d s) :: l2 /\ e = snd (write1 P ps d s) /\
    find (fun d => id_eq (d_mid d) m) l = Some d.
Proof.
  revert l' e. induction l as [|d l IH]; intros l' e; cbn [write_media]; [discriminate|]. destruct (id_eq (d_mid d) m) eqn:E.
  - destruct (write1 P ps d s) as [d' e'] eqn:W. intros [= <- <-]. exists [], d, l. rewrite W. cbn [app fst snd find]. rewrite E.
    repeat split. apply id_eq_true, E.
  - destruct (write_media P ps l m s) as [[r' e']|]; [|discriminate]. intros [= <- <-].
    destruct (IH _ _ eq_refl) as (l1 & d0 & l2 & -> & A & -> & B & C). exists (d :: l1), d0, l2. cbn [app find]. rewrite E. auto.
Qed.
Lemma write_none l m s : write_media P ps l m s = None <-> ~ In m (map d_mid l).
Proof.
  induction l as [|d l IH]; cbn [write_media map]; [split; [intros _ []|reflexivity]|]. destruct (id_eq (d_mid d) m) eqn:E.
  - destruct (write1 P ps d s). split; [discriminate|]. intro H. destruct H. left. apply id_eq_true, E.
  - destruct (write_media P ps l m s) as [[? ?]|].
    + split; [discriminate|]. intro H. exfalso. assert (Some (l0, o) = None) as X0 by (apply IH; intro X; apply H; right; exact X). discriminate X0.
    + split; [|reflexivity]. intros _ [X|X]; [rewrite X, id_eq_refl in E; discriminate|]. apply (proj1 IH eq_refl), X.
Qed.
Lemma write1_mid d s : d_mid (fst (write1 P ps d s)) = d_mid d /\ d_audio (fst (write1 P ps d s)) = d_audio d /\ d_pay (fst (write1 P ps d s)) = d_pay d.
Proof. unfold write1. destruct (negb _); [auto|]. destruct (match m_rid s with Some _ => _ | None => _ end); [auto|]. destruct (100 <? _); auto. Qed.
Lemma write1_wait d s : d_wait (fst (write1 P ps d s)) = match snd (write1 P ps d s) with None => d_wait d ++ [s] | Some _ => d_wait d end.
Proof. unfold write1. destruct (negb _); [auto|]. destruct (match m_rid s with Some _ => _ | None => _ end); [auto|]. destruct (100 <? _); auto. Qed.
Lemma write1_ok d s : snd (write1 P ps d s) = None -> existsb (fun p => wp_pt p =? m_pt s) ps = true /\ zlen (d_wait d) <= 100.
Proof.
  unfold write1. destruct (existsb _ _); cbn [negb]; [|discriminate]. destruct (match m_rid s with Some _ => _ | None => _ end); [discriminate|].
  destruct (Z.ltb_spec 100 (zlen (d_wait d))); [discriminate|]. auto.
Qed.

Lemma MI_write d acc A s : MI d acc A -> 0 <= numer (m_time s) /\ 0 < denom (m_time s) ->
  MI (fst (write1 P ps d s)) (acc ++ match snd (write1 P ps d s) with None => [s] | Some _ => [] end) A.
Proof.
  intros [F L C S] T. destruct (write1_mid d s) as (E1 & _ & E2). pose proof (write1_wait d s) as E3. pose proof (write1_ok d s) as E4.
  destruct (snd (write1 P ps d s)) as [e|].
  - rewrite app_nil_r. constructor; rewrite ?E1, ?E2, ?E3; assumption.
  - destruct (E4 eq_refl) as [K1 K2]. constructor; rewrite ?E1, ?E2, ?E3; try assumption.
    + rewrite F, app_assoc. reflexivity.
    + rewrite zlen_app, zlen_cons, zlen_nil. lia.
    + apply Forall_app. split; [exact C|]. constructor; [split; assumption|constructor].
Qed.

Lemma SSI_ext xs tw A Of Of' cl : (forall k, Of k = Of' k) -> SSI ps kinds decl xs tw A Of cl -> SSI ps kinds decl xs tw A Of' cl.
Proof.
  intros E [L H]. split; [exact L|]. intros k ss rtx m r q0 D. destruct (H _ _ _ _ _ _ D) as (x & rs & W & H1 & H2 & H3 & H4).
  exists x, rs, W. rewrite <- E. auto.
Qed.

(** A step that is none of the frame API's, a write or a timeout leaves what is read from the history alone. *)
Lemma step_inv w h o w' y : INV w h -> frame_api ps o -> sample_ok o -> wstep w o = Ok (w', y) ->
  Forall numbers_fit (acts [(o, y)]) -> INV w' (h ++ [(o, y)]).
Proof.
  intros [ND KI IM IS IR] FA SO H NF. destruct o as [m s| |k o|m r|]; cbn [WrModel.wstep] in H.
  - assert (forall k y, out k (h ++ [(WWrite m s, y)]) = out k h) as EO by (intros; rewrite out_app; apply app_nil_r).
    assert (forall y, acts (h ++ [(WWrite m s, OWrite y)]) = acts h) as EA by (intros; rewrite acts_app; apply app_nil_r).
    destruct (write_media P ps (w_medias w) m s) as [[ds e]|] eqn:E; injection H as <- <-.
    2:{ constructor; rewrite ?EA; try assumption; [|eapply SSI_ext; [|exact IS]; intro; symmetry; apply EO].
        eapply Forall_impl; [|exact IM]. cbn. intros d Hd. rewrite accepted_app. cbn [accepted flat_map]. rewrite app_nil_r. exact Hd. }
    destruct (write_split _ _ _ _ _ E) as (l1 & d & l2 & E1 & E2 & E3 & E4 & _). destruct (write1_mid d s) as (W1 & W2 & W3).
    constructor; cbn [w_medias w_streams w_tw w_closing]; rewrite ?EA; try assumption.
    + rewrite E3, map_app. cbn [map]. rewrite W1. rewrite E1, map_app in ND. exact ND.
    + rewrite <- KI. unfold kinds_of. cbn [w_medias]. rewrite E1, E3, !map_app. cbn [map]. rewrite W1, W2. reflexivity.
    + rewrite E1 in IM, ND. rewrite map_app in ND. cbn [map] in ND. apply Forall_app in IM as [I1 I2]. inversion I2 as [|? ? I3 I4]; subst.
      assert (forall d0 : media P, d_mid d0 <> d_mid d -> accepted (d_mid d0) (h ++ [(WWrite (d_mid d) s, OWrite (Some (snd (write1 P ps d s))))]) = accepted (d_mid d0) h) as AO.
      { intros d0 N. rewrite accepted_app. cbn [accepted flat_map app]. destruct (snd _); [rewrite app_nil_r; reflexivity|].
        destruct (id_eq_spec (d_mid d) (d_mid d0)); [congruence|]. apply app_nil_r. }
      apply NoDup_remove in ND as [_ ND]. rewrite in_app_iff in ND.
      apply Forall_app. split; [|constructor].
      * rewrite Forall_forall in I1 |- *. intros d0 H0. rewrite AO; [apply I1, H0|]. intro EQ. apply ND. left. rewrite <- EQ. apply in_map, H0.
      * rewrite W1, accepted_app. cbn [accepted flat_map app]. rewrite id_eq_refl, app_nil_r. apply MI_write; [exact I3|exact SO].
      * rewrite Forall_forall in I4 |- *. intros d0 H0. rewrite AO; [apply I4, H0|]. intro EQ. apply ND. right. rewrite <- EQ. apply in_map, H0.
    + eapply SSI_ext; [|exact IS]. intro. symmetry. apply EO.
  - assert (forall k y, out k (h ++ [(WTimeout, y)]) = out k h) as EO by (intros; rewrite out_app; apply app_nil_r).
    assert (forall m y, accepted m (h ++ [(WTimeout, y)]) = accepted m h) as EC by (intros; rewrite accepted_app; apply app_nil_r).
    assert (forall a e, acts (h ++ [(WTimeout, OTimeout a e)]) = acts h ++ a) as EA by (intros; rewrite acts_app; cbn [acts flat_map snd]; rewrite app_nil_r; reflexivity).
    destruct (w_closing w) eqn:CL.
    { injection H as <- <-. constructor; rewrite ?EA, ?app_nil_r; try assumption.
      - eapply Forall_impl; [|exact IM]. cbn. intros d Hd. rewrite EC. exact Hd.
      - rewrite CL. eapply SSI_ext; [|exact IS]. intro. symmetry. apply EO. }
    destruct (pay_all ps mtu (w_medias w) (w_streams w)) as [[[[ds xs] a] e]| |] eqn:E; cbn [bind] in H; try discriminate. injection H as <- <-.
    assert (Forall numbers_fit a) as NA by (cbn [acts flat_map snd] in NF; rewrite app_nil_r in NF; exact NF).
    destruct (pay_all_MI P fresh cut ps mtu _ _ _ (fun m => accepted m h) _ _ _ _ ND IM E) as (M1 & M2 & M3 & _).
    assert (map d_mid ds = map d_mid (w_medias w) /\ map (fun d => (d_mid d, d_audio d)) ds = map (fun d => (d_mid d, d_audio d)) (w_medias w)) as [Z1 Z2].
    { clear - M2. induction M2 as [|d d' l l' [A B] _ [I1 I2]]; [split; reflexivity|]. cbn [map]. rewrite A, B, I1, I2. split; reflexivity. }
    constructor; cbn [w_medias w_streams w_tw w_closing]; rewrite ?EA.
    + rewrite Z1. exact ND.
    + rewrite <- KI. exact Z2.
    + eapply Forall_impl; [|exact M1]. cbn. intros d Hd. rewrite EC. exact Hd.
    + eapply SSI_ext; [|eapply pay_all_ok; [exact REAL|exact MTU|exact IS| |exact E|exact NA]]; [intro; symmetry; apply EO|].
      rewrite Forall_forall in IM |- *. intros d Hd. split; [rewrite <- KI; unfold kinds_of; apply (in_map (fun d => (d_mid d, d_audio d))), Hd|].
      exact (mi_checked _ _ _ _ _ _ _ _ (IM _ Hd)).
    + apply Forall_app. split; [exact IR|]. eapply pay_all_right; [exact (SSI_placed _ _ _ _ _ _ _ _ IS)|exact E].
  - destruct (nth_error (w_streams w) k) as [x|] eqn:NX.
    2:{ injection H as <- <-. constructor; rewrite ?acts_app; cbn [acts flat_map snd]; rewrite ?app_nil_r; try assumption.
        - eapply Forall_impl; [|exact IM]. cbn. intros d Hd. rewrite accepted_app. cbn [accepted flat_map]. rewrite app_nil_r. exact Hd.
        - eapply SSI_ext; [|exact IS]. intro. cbn beta. rewrite out_app. cbn. rewrite app_nil_r. reflexivity. }
    destruct (txstep ex al x (w_tw w) o) as [[[x' tw] yy]| |] eqn:T; cbn [bind] in H; try discriminate. injection H as <- <-.
    assert (steady (map wp_par ps) o /\ op_ok o /\ match o with XWrite _ | XNextSeq => False | _ => True end) as (F1 & F2 & F3) by (destruct o; cbn [frame_api] in FA; tauto).
    constructor; cbn [w_medias w_streams w_tw w_closing]; rewrite ?acts_app; cbn [acts flat_map snd]; rewrite ?app_nil_r; try assumption.
    + eapply Forall_impl; [|exact IM]. cbn. intros d Hd. rewrite accepted_app. cbn [accepted flat_map]. rewrite app_nil_r. exact Hd.
    + destruct IS as [L IS]. split; [rewrite len_upd; exact L|]. intros k' ss rtx m r q0 D. destruct (IS _ _ _ _ _ _ D) as (x0 & rs & W & H1 & H2 & H3 & H4).
      rewrite nth_upd, out_app. unfold out at 2. cbn [flat_map app]. rewrite (Nat.eqb_sym k k'). destruct (Nat.eqb_spec k' k) as [->|N].
      * rewrite NX in H1. injection H1 as <-. assert (Nat.ltb k (length (w_streams w)) = true) as -> by (apply Nat.ltb_lt, nth_error_Some; congruence).
        exists x', rs, W. split; [reflexivity|]. split; [exact H2|]. split; [|exact H4]. eapply SI_step; eauto.
      * exists x0, rs, W. split; [exact H1|]. split; [exact H2|]. split; [|exact H4]. cbn [packets flat_map]. rewrite app_nil_r. eapply SI_jump, H3.
  - injection H as <- <-. constructor; cbn [w_medias w_streams w_tw w_closing]; rewrite ?acts_app; cbn [acts flat_map snd]; rewrite ?app_nil_r; try assumption.
    + rewrite map_map. erewrite map_ext; [exact ND|]. intro d. cbv beta. destruct (id_eq _ _); reflexivity.
    + rewrite <- KI. unfold kinds_of. cbn [w_medias]. rewrite map_map. apply map_ext. intro d. destruct (id_eq _ _); reflexivity.
    + rewrite Forall_map. eapply Forall_impl; [|exact IM]. cbv beta. intros d [F L C S].
      assert (forall m0, accepted m0 (h ++ [(WRids m r, ONone)]) = accepted m0 h) as EC by (intros; rewrite accepted_app; apply app_nil_r).
      destruct (id_eq (d_mid d) m); rewrite EC; constructor; assumption.
    + eapply SSI_ext; [|exact IS]. intro. cbn beta. rewrite out_app. cbn. rewrite app_nil_r. reflexivity.
  - assert (forall k y, out k (h ++ [(WClose, y)]) = out k h) as EO by (intros; rewrite out_app; apply app_nil_r).
    assert (acts (h ++ [(WClose, ONone)]) = acts h) as EA by (rewrite acts_app; apply app_nil_r).
    assert (forall m, accepted m (h ++ [(WClose, ONone)]) = accepted m h) as EC by (intros; rewrite accepted_app; apply app_nil_r).
    destruct (w_closing w) eqn:CL; injection H as <- <-.
    + constructor; rewrite ?EA, ?CL; try assumption; [eapply Forall_impl; [|exact IM]; cbv beta; intros d Hd; rewrite EC; exact Hd|].
      eapply SSI_ext; [|exact IS]. intro. symmetry. apply EO.
    + constructor; cbn [w_medias w_streams w_tw w_closing]; rewrite ?EA; try assumption; [eapply Forall_impl; [|exact IM]; cbv beta; intros d Hd; rewrite EC; exact Hd|].
      destruct IS as [L IS]. split; [rewrite map_length; exact L|]. intros k' ss rtx m r q0 D. destruct (IS _ _ _ _ _ _ D) as (x0 & rs & W & H1 & H2 & H3 & H4).
      exists (reset_buffers x0 al), rs, W. split; [rewrite nth_error_map, H1; reflexivity|]. split; [exact H2|]. split; [|exact H4].
      rewrite EO. apply SI_close. exact H3.
Qed.

Lemma run_inv ops : forall w h w' h', INV w h -> Forall (frame_api ps) ops -> Forall sample_ok ops -> wrun w ops = Ok (w', h') ->
  Forall numbers_fit (acts h') -> INV w' (h ++ h').
Proof.
  induction ops as [|o ops IH]; intros w h w' h' HI FA SO H NF; cbn [WrModel.wrun] in H.
  { injection H as <- <-. rewrite app_nil_r. exact HI. }
  destruct (wstep w o) as [[w1 y]| |] eqn:E; cbn [bind fst snd] in H; try discriminate.
  destruct (wrun w1 ops) as [[w2 h2]| |] eqn:E2; cbn [bind fst snd] in H; try discriminate. injection H as <- <-.
  inversion FA; subst. inversion SO; subst. change ((o, y) :: h2) with ([(o, y)] ++ h2) in NF |- *. rewrite acts_app in NF. apply Forall_app in NF as [N1 N2].
  rewrite app_assoc. eapply IH; eauto. eapply step_inv; eauto.
Qed.

Lemma start_inv mw w : start mw al w decl -> kinds_of w = kinds -> INV w [].
Proof.
  intros (H1 & H2 & H3 & H4) K. constructor; try assumption.
  - eapply Forall_impl; [|exact H1]. intros d [E1 E2]. constructor; rewrite ?E1, ?E2; try constructor.
    + cbv. discriminate.
  - rewrite H4. clear - H3. split; [clear - H3; induction H3; cbn [length]; congruence|]. intros k ss rtx m r q0 D.
    revert k D. induction H3 as [|x d xs ds Hd _ IH]; intros [|k] D; try discriminate; cbn [nth_error] in D.
    + injection D as ->. destruct Hd as (qr & lst & -> & N & Q).
      set (rs := match rtx with Some q => q | None => ss + 1 end). assert (rs <> ss) as NE by (unfold rs; destruct rtx; [congruence|lia]).
      exists (tx_new ss rtx m r mw al q0 qr lst), rs, []. split; [reflexivity|]. split; [exact NE|]. split; [|constructor].
      constructor; try reflexivity; [exact Q|cbn; unfold zlen; cbn; lia|constructor|].
      exists (spec0 ss rtx m r qr (w_tw w)), [], []. split; [apply R_new|]. split; [|split; [constructor|split; [reflexivity|split; [reflexivity|discriminate]]]].
      split; [reflexivity|]. split; [|cbn; lia]. cbn [spec0 a_rtx]. intros q ->. reflexivity.
    + destruct (IH k D) as (x0 & rs & W & A1 & A2 & A3 & A4). change (acts []) with (@nil act) in *.
      assert (W = []) as -> by (inversion A4; reflexivity). exists x0, rs, []. split; [exact A1|]. split; [exact A2|]. split; [exact A3|constructor].
  - constructor.
Qed.

(** Reading the state *)
Lemma find_media w m : NoDup (map d_mid (w_medias w)) -> In m (map d_mid (w_medias w)) ->
  exists d, In d (w_medias w) /\ d_mid d = m /\ @waiting P m w = d_wait d.
Proof.
  intros _ H. apply in_map_iff in H as (d & E & I). unfold waiting.
  destruct (find (fun d => id_eq (d_mid d) m) (w_medias w)) as [d0|] eqn:F.
  - apply find_some in F as [F1 F2]. exists d0. split; [exact F1|]. split; [apply id_eq_true, F2|reflexivity].
  - exfalso. pose proof (find_none _ _ F d I) as X. cbv beta in X. subst m. rewrite id_eq_refl in X. discriminate.
Qed.
End M.

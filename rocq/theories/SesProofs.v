(** One stream, seen from the session: its packets are well formed, those on its RTX SSRC have growing numbers. *)
From Coq Require Import Sorting.Sorted.
From Verif Require Import Base BaseFacts SeqModel MtimeModel SendQueueModel EvictModel Vp8Model ExtModel HeaderModel NackModel
  TxModel TxSpec TxProofs TxProofs2 TxProofs3 TxProofs4 WrModel WrSpec WrProofs WrProofs2 WrProofs3.

Lemma header_len12 cap h m hb : write_header cap h m = Ok hb -> 12 <= zlen hb.
Proof.
  unfold write_header. destruct (15 <? csrc_count h); [discriminate|]. destruct (127 <? payload_type h); [discriminate|].
  destruct (upto (csrc h) (csrc_count h)) as [cs| |]; cbn [bind]; try discriminate. destruct (_ <? _); [discriminate|].
  destruct (write_exts _ _ _ _ _) as [eb| |]; cbn [bind]; try discriminate. match goal with |- (if ?c then _ else _) = _ -> _ => destruct c; [discriminate|] end.
  intro H. apply ok_inj in H. subst hb. unfold be16 at 1. unfold be32 at 1 2. cbn [app]. rewrite !zlen_cons. match goal with |- context [zlen ?l] => pose proof (zlen_nonneg l) end. lia.
Qed.

Definition packet_ok (ss : Z) (rtx : option Z) (p : list Z * receipt) : Prop :=
  exists hb body, fst p = hb ++ body /\ header_len (rc_hdr (snd p)) = zlen hb /\ 12 <= zlen hb /\
    sequence_number (rc_hdr (snd p)) = rc_seq (snd p) mod U16 /\ (ssrc (rc_hdr (snd p)) = ss \/ rtx = Some (ssrc (rc_hdr (snd p)))).

Lemma step_packet_ok a o b r a' : sstep a o (YPacket b r) a' -> packet_ok (a_ssrc a) (a_rtx a) (b, r).
Proof.
  intro H. inversion H as [| |now m en ps y a1 P| | | | | | | |? ? K1 K2]; subst; [|destruct K2].
  inversion P as [w q hb bd asked E KN SA tw HW BO|w rpt rs n asked hb bd IN NK RP ER NX SA tw HW BO
    |w rpt rs n asked hb bd IN NK RP ER NX SA P50 NQ tw HW BO|pt rpt rs n asked hb len k RP ER NX SA P0 E1 E2 E3 NQ tw HW| |]; subst;
    exists hb; eexists; (split; [reflexivity|]); (split; [reflexivity|]); (split; [eapply header_len12, HW|]); (split; [reflexivity|]).
  - left. reflexivity.
  - right. exact ER.
  - right. exact ER.
  - right. exact ER.
Qed.

Definition rtx_nums (rs : Z) (O : list (list Z * receipt)) : list Z := map (fun p => rc_seq (snd p)) (filter (on_ssrc rs) O).

Section F.
Variables (ss : Z) (rtx : option Z) (ps : list param).
Hypothesis NE : rtx <> Some ss.

Definition XI (x : tx) (tw : Z) (O : list (list Z * receipt)) : Prop :=
  exists a, R x tw a /\ a_ssrc a = ss /\ a_rtx a = rtx /\ 0 <= x_seq x /\ Forall (packet_ok ss rtx) O /\
    forall rs, rtx = Some rs -> StronglySorted Z.lt (rtx_nums rs O) /\ Forall (fun n => n < a_next a) (rtx_nums rs O).

Lemma XI_jump x tw O tw' : XI x tw O -> XI x tw' O.
Proof. intros (a & H & H'). exists (with_tw a tw'). split; [exact (R_jump _ _ _ _ H)|exact H']. Qed.

Lemma sorted_snoc l n : StronglySorted Z.lt l -> Forall (fun x => x < n) l -> StronglySorted Z.lt (l ++ [n]).
Proof.
  induction 1 as [|x l S IH F]; intro H; cbn [app]; [repeat constructor|]. inversion H; subst. constructor; [apply IH; assumption|].
  apply Forall_app. split; [exact F|]. constructor; [assumption|constructor].
Qed.

Lemma XI_step ex al x tw O o x' tw' y : XI x tw O -> steady ps o -> op_ok o ->
  match o with XWrite _ | XNextSeq => False | _ => True end ->
  txstep ex al x tw o = Ok (x', tw', y) -> XI x' tw' (O ++ packets [y]).
Proof.
  intros (a & HR & H1 & H2 & H3 & H4 & H5) ST OK N T.
  destruct (step_same _ _ _ _ _ _ _ _ _ ST N T) as (S1 & _ & _).
  destruct (step_ok _ _ _ _ _ _ _ _ _ HR OK T) as (a' & S & HR').
  assert (keeps_ssrc o) as K by (destruct o; cbn [steady] in ST; try contradiction; exact I).
  destruct (packet_dec y) as [(b & r & ->)|NP].
  - pose proof (step_packet _ _ _ _ _ S) as E. destruct (effect_ids _ _ _ _ E) as [I1 I2].
    exists a'. split; [exact HR'|]. split; [congruence|]. split; [congruence|]. split; [lia|]. split.
    { apply Forall_app. split; [exact H4|]. constructor; [|constructor]. rewrite <- H1, <- H2. eapply step_packet_ok, S. }
    intros rs ER. destruct (H5 _ ER) as [H6 H7]. unfold rtx_nums in *. rewrite filter_app, map_app.
    cbn [packets flat_map app filter].
    inversion E as [? ? w q asked tw0 (M1 & _) EQ|? ? w asked pad tw0 (M1 & _) NX|? ? asked pad tw0 (M1 & _) NX]; subst; cbn [after a_next].
    + assert (on_ssrc rs (b, r) = false) as -> by (unfold on_ssrc; cbn [snd]; rewrite M1; apply Z.eqb_neq; congruence).
      cbn [map]. rewrite app_nil_r. split; assumption.
    + assert (on_ssrc rs (b, r) = true) as -> by (unfold on_ssrc; cbn [snd]; apply Z.eqb_eq; congruence). cbn [map snd].
      split; [apply sorted_snoc; [exact H6|eapply Forall_impl; [|exact H7]; cbv beta; lia]|].
      apply Forall_app. split; [eapply Forall_impl; [|exact H7]; cbv beta; lia|]. constructor; [lia|constructor].
    + assert (on_ssrc rs (b, r) = true) as -> by (unfold on_ssrc; cbn [snd]; apply Z.eqb_eq; congruence). cbn [map snd].
      split; [apply sorted_snoc; [exact H6|eapply Forall_impl; [|exact H7]; cbv beta; lia]|].
      apply Forall_app. split; [eapply Forall_impl; [|exact H7]; cbv beta; lia|]. constructor; [lia|constructor].
  - rewrite (not_packet _ NP). cbn [packets flat_map]. rewrite app_nil_r.
    destruct (step_quiet _ _ _ _ S K NP OK (r_pad0 _ _ _ HR)) as (I1 & I2 & _ & _ & _ & NX & _).
    exists a'. split; [exact HR'|]. split; [congruence|]. split; [congruence|]. split; [lia|]. split; [exact H4|].
    intros rs ER. destruct (H5 _ ER) as [H6 H7]. split; [exact H6|]. eapply Forall_impl; [|exact H7]. cbv beta. lia.
Qed.
Lemma XI_push x tw O w : XI x tw O -> w_seq w = x_seq x -> w_seq w < U64 -> XI (write_rtp (set_seq x (x_seq x + 1)) w) tw O.
Proof.
  intros (a & HR & H1 & H2 & H3 & H4 & H5) QS QB.
  assert (op_ok (XWrite w)) as OK by (cbn [op_ok]; lia).
  destruct (step_ok (fun _ _ _ => false) 0 _ _ _ (XWrite w) _ _ _ (R_seq _ _ _ (x_seq x + 1) HR) OK eq_refl) as (a' & S & HR').
  assert (a' = after a (a_queue a ++ [(w, false)]) (a_sent a) (a_asked a) (a_next a) (a_pad a) (a_twcc a)) as -> by (inversion S; [reflexivity|contradiction]).
  eexists. split; [exact HR'|]. cbn [after a_ssrc a_rtx a_next]. cbn [write_rtp set_q set_wall set_seq x_seq]. repeat (split; [assumption || lia|]). exact H5.
Qed.
Lemma XI_close x tw O al : XI x tw O -> XI (reset_buffers x al) tw O.
Proof.
  intros (a & HR & H1 & H2 & H3 & H4 & H5).
  destruct (step_ok (fun _ _ _ => false) al _ _ _ XReset _ _ _ HR Logic.I eq_refl) as (a' & S & HR').
  assert (a' = after a [] [] [] (a_next a) 0 (a_twcc a)) as -> by (inversion S; [reflexivity|contradiction]).
  eexists. split; [exact HR'|]. cbn [after a_ssrc a_rtx a_next]. unfold reset_buffers. cbn [set_padding set_resends set_cache set_info set_q x_seq]. auto.
Qed.
Lemma XI_chunks p au s cs : forall f x x' tw O, XI x tw O -> x_seq x + zlen cs <= U64 -> push_chunks p au s f cs x = Ok x' -> XI x' tw O.
Proof.
  induction cs as [|b cs IH]; intros f x x' tw O HX HL; cbn [push_chunks]; [intros [= <-]; exact HX|].
  rewrite zlen_cons in HL. pose proof (zlen_nonneg cs). destruct (is_marker _ _); cbn [bind]; try discriminate.
  intro H0. eapply IH; [|  |exact H0].
  - apply XI_push; [exact HX|reflexivity|cbn [w_seq]; lia].
  - cbn [write_rtp set_q set_wall set_seq x_seq]. lia.
Qed.
End F.

(** All streams. *)
Section M.
Variables (P : Type) (fresh : codec -> P) (cut : P -> Z -> list Z -> P * option (list (list Z))).
Variables (ps : list wparam) (decl : decls) (mtu : Z) (ex : Z -> Z -> Z -> bool) (al : Z).
Notation wstep := (wstep P fresh cut ex al ps mtu). Notation wrun := (wrun P fresh cut ex al ps mtu).

Definition XSI (xs : list tx) (tw : Z) (Of : nat -> list (list Z * receipt)) : Prop :=
  forall k, match nth_error decl k with
            | Some (ss, rtx, _, _, _) => rtx <> Some ss /\ exists x, nth_error xs k = Some x /\ XI ss rtx x tw (Of k)
            | None => nth_error xs k = None /\ Of k = []
            end.
Lemma XSI_ext xs tw Of Of' : (forall k, Of k = Of' k) -> XSI xs tw Of -> XSI xs tw Of'.
Proof.
  intros E H k. specialize (H k). rewrite <- E. exact H.
Qed.
Lemma pay_media_XSI d xs tw Of d' xs' a e : XSI xs tw Of -> pay_media P fresh cut ps mtu d xs = Ok (d', xs', a, e) ->
  Forall numbers_fit a -> XSI xs' tw Of.
Proof.
  intros HX H NF. unfold pay_media in H. destruct (d_wait d) as [|s rest]; [injection H as <- <- <- <-; exact HX|]. cbv zeta in H.
  destruct (find_tx _ _ _) as [k|]; [|injection H as <- <- <- <-; exact HX].
  destruct (find_par _ _) as [p|]; [|discriminate]. destruct (nth_error xs k) as [x|] eqn:NX; [|discriminate].
  destruct (match get_pay P _ _ with Some st => Ok st | None => _ end) as [st| |]; cbn [bind] in H; try discriminate.
  destruct (mtu <? 16); [discriminate|]. destruct (cut st (align mtu) (m_data s)) as [st' [cs|]]; [|injection H as <- <- <- <-; exact HX].
  destruct (push_chunks p _ s true cs x) as [x'| |] eqn:PC; cbn [bind] in H; try discriminate. injection H as <- <- <- <-.
  inversion NF as [|? ? N1 _]; subst. cbn [numbers_fit] in N1.
  intro j. specialize (HX j) as HJ. rewrite nth_upd. destruct (Nat.eqb_spec j k) as [->|NK]; [|exact HJ].
  assert (Nat.ltb k (length xs) = true) as -> by (apply Nat.ltb_lt, nth_error_Some; congruence).
  destruct (nth_error decl k) as [[[[[ss rtx] m] r] q0]|]; [|destruct HJ; congruence].
  destruct HJ as (NE & x0 & E & HI). rewrite NX in E. injection E as <-. split; [exact NE|]. exists x'. split; [reflexivity|].
  eapply XI_chunks; [exact HI|exact N1|exact PC].
Qed.
Lemma pay_all_XSI ds : forall xs tw Of ds' xs' a e, XSI xs tw Of -> pay_all P fresh cut ps mtu ds xs = Ok (ds', xs', a, e) ->
  Forall numbers_fit a -> XSI xs' tw Of.
Proof.
  induction ds as [|d ds IH]; intros xs tw Of ds' xs' a e HX H NF; cbn [pay_all] in H; [injection H as <- <- <- <-; exact HX|].
  destruct (pay_media P fresh cut ps mtu d xs) as [[[[d1 x1] a1] e1]| |] eqn:E; cbn [bind] in H; try discriminate.
  destruct e1.
  - injection H as <- <- <- <-. eapply pay_media_XSI; eassumption.
  - destruct (pay_all P fresh cut ps mtu ds x1) as [[[[d2 x2] a2] e2]| |] eqn:E2; cbn [bind] in H; try discriminate. injection H as <- <- <- <-.
    apply Forall_app in NF as [N1 N2]. eapply IH; [|exact E2|exact N2]. eapply pay_media_XSI; eassumption.
Qed.

Definition WX (w : wr P) (h : history) : Prop := XSI (w_streams w) (w_tw w) (fun k => out k h).
Lemma step_WX w h o w' y : WX w h -> frame_api ps o -> wstep w o = Ok (w', y) -> Forall numbers_fit (acts [(o, y)]) -> WX w' (h ++ [(o, y)]).
Proof.
  unfold WX. intros HX FA H NF. destruct o as [m s| |k o|m r|]; cbn [WrModel.wstep] in H.
  - destruct (write_media _ _ _ _ _) as [[ds e]|]; injection H as <- <-; (eapply XSI_ext; [|exact HX]; intro; rewrite out_app; symmetry; apply app_nil_r).
  - destruct (w_closing w).
    { injection H as <- <-. eapply XSI_ext; [|exact HX]. intro. rewrite out_app. symmetry. apply app_nil_r. }
    destruct (pay_all P fresh cut ps mtu (w_medias w) (w_streams w)) as [[[[ds xs] a] e]| |] eqn:E; cbn [bind] in H; try discriminate. injection H as <- <-.
    cbn [acts flat_map snd] in NF. rewrite app_nil_r in NF. cbn [w_streams w_tw].
    eapply XSI_ext; [|eapply pay_all_XSI; eassumption]. intro. rewrite out_app. symmetry. apply app_nil_r.
  - destruct (nth_error (w_streams w) k) as [x|] eqn:NX.
    2:{ injection H as <- <-. eapply XSI_ext; [|exact HX]. intro j. rewrite out_app. unfold out at 3. cbn [flat_map packets]. rewrite ?app_nil_r. reflexivity. }
    destruct (txstep ex al x (w_tw w) o) as [[[x' tw] yy]| |] eqn:T; cbn [bind] in H; try discriminate. injection H as <- <-.
    assert (steady (map wp_par ps) o /\ op_ok o /\ match o with XWrite _ | XNextSeq => False | _ => True end) as (F1 & F2 & F3) by (destruct o; cbn [frame_api] in FA; tauto).
    cbn [w_streams w_tw]. intro j. specialize (HX j). rewrite nth_upd, out_app. unfold out at 2 4. cbn [flat_map app]. rewrite (Nat.eqb_sym k j).
    destruct (Nat.eqb_spec j k) as [->|NK].
    + assert (Nat.ltb k (length (w_streams w)) = true) as -> by (apply Nat.ltb_lt, nth_error_Some; congruence).
      destruct (nth_error decl k) as [[[[[ss rtx] m] r] q0]|]; [|destruct HX; congruence].
      destruct HX as (NE & x0 & E & HI). rewrite NX in E. injection E as <-. split; [exact NE|]. exists x'. split; [reflexivity|]. rewrite app_nil_r. eapply XI_step; eassumption.
    + cbn [packets flat_map]. rewrite app_nil_r. destruct (nth_error decl j) as [[[[[ss rtx] m] r] q0]|]; [|exact HX].
      destruct HX as (NE & x0 & E & HI). split; [exact NE|]. exists x0. split; [exact E|]. eapply XI_jump, HI.
  - injection H as <- <-. cbn [w_streams w_tw]. eapply XSI_ext; [|exact HX]. intro. rewrite out_app. symmetry. apply app_nil_r.
  - destruct (w_closing w); injection H as <- <-; cbn [w_streams w_tw].
    + eapply XSI_ext; [|exact HX]. intro. rewrite out_app. symmetry. apply app_nil_r.
    + intro j. specialize (HX j). rewrite out_app. unfold out at 2 4. cbn [flat_map packets app]. rewrite app_nil_r, nth_error_map.
      destruct (nth_error decl j) as [[[[[ss rtx] m] r] q0]|].
      * destruct HX as (NE & x0 & E & HI). split; [exact NE|]. exists (reset_buffers x0 al). rewrite E. split; [reflexivity|]. apply XI_close, HI.
      * destruct HX as [-> E]. split; [reflexivity|exact E].
Qed.
Lemma run_WX ops : forall w h w' h', WX w h -> Forall (frame_api ps) ops -> wrun w ops = Ok (w', h') -> Forall numbers_fit (acts h') -> WX w' (h ++ h').
Proof.
  induction ops as [|o ops IH]; intros w h w' h' HI FA H NF; cbn [WrModel.wrun] in H.
  { injection H as <- <-. rewrite app_nil_r. exact HI. }
  destruct (wstep w o) as [[w1 y]| |] eqn:E; cbn [bind fst snd] in H; try discriminate.
  destruct (wrun w1 ops) as [[w2 h2]| |] eqn:E2; cbn [bind fst snd] in H; try discriminate. injection H as <- <-.
  inversion FA; subst. change ((o, y) :: h2) with ([(o, y)] ++ h2) in NF |- *. rewrite acts_app in NF. apply Forall_app in NF as [N1 N2].
  rewrite app_assoc. eapply IH; eauto. eapply step_WX; eauto.
Qed.
Lemma start_WX mw w : start mw al w decl -> WX w [].
Proof.
  intros (_ & _ & H & _). unfold WX. change (fun k => out k []) with (fun _ : nat => @nil (list Z * receipt)).
  intro k. revert k. induction H as [|x d xs ds Hd _ IH]; intros [|k]; cbn [nth_error]; try (split; reflexivity).
  - destruct d as [[[[ss rtx] m] r] q0]. destruct Hd as (qr & lst & -> & NE & Q). split; [exact NE|]. eexists. split; [reflexivity|].
    exists (spec0 ss rtx m r qr (w_tw w)). split; [apply R_new|]. split; [reflexivity|]. split; [reflexivity|]. split; [exact Q|]. split; [constructor|].
    intros rs _. split; constructor.
  - apply IH.
Qed.
End M.

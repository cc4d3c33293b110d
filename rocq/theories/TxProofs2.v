(** Consequences of the automaton of TxSpec. *)
From Coq Require Import Sorting.Sorted.
From Verif Require Import Base BaseFacts SeqModel MtimeModel SendQueueModel EvictModel
  Vp8Model ExtModel HeaderModel NackModel TxModel TxSpec TxProofs.
Ltac spl := repeat match goal with |- _ /\ _ => split end.

Lemma skip_header {A} (a b : list A) n : n = zlen a -> skipn (Z.to_nat n) (a ++ b) = b.
Proof. intros ->. unfold zlen. rewrite Nat2Z.id, skipn_app, skipn_all, Nat.sub_diag. reflexivity. Qed.

(** the kinds of packets a step can put out *)
Definition is_main (a : spec) (b : list Z) (r : receipt) (w : rtpwrite) : Prop :=
  ssrc (rc_hdr r) = a_ssrc a /\ out_key (b, r) = write_key w /\ body_of w (payload_of (b, r)) /\ rc_pad r = false.
Definition is_rtx (a : spec) (b : list Z) (r : receipt) (w : rtpwrite) : Prop :=
  a_rtx a = Some (ssrc (rc_hdr r)) /\ In w (a_sent a) /\ w_nack w = true /\
  exists body, body_of w body /\ payload_of (b, r) = be16 (w_seq w mod U16) ++ body /\
    timestamp (rc_hdr r) = w_time w /\ marker (rc_hdr r) = w_marker w.
Definition is_blank (a : spec) (b : list Z) (r : receipt) : Prop :=
  a_rtx a = Some (ssrc (rc_hdr r)) /\ rc_pad r = true /\ exists n, 16 <= n <= 240 /\ payload_of (b, r) = rep 0 (n - 1) ++ [n].

Definition rpart (w : rtpwrite) (r : receipt) : list Z := if rc_pad r then [] else [w_seq w mod U16].

Inductive effect (a : spec) : list Z -> receipt -> spec -> Prop :=
| ef_main : forall b r w q asked tw, is_main a b r w -> a_queue a = (w, true) :: q -> sublist asked (a_asked a) ->
    effect a b r (after a q (w :: a_sent a) asked (a_next a) (a_pad a) tw)
| ef_rtx : forall b r w asked pad tw, is_rtx a b r w -> a_next a <= rc_seq r -> sequence_number (rc_hdr r) = rc_seq r mod U16 ->
    sublist (rpart w r ++ asked) (a_asked a) ->
    (if rc_pad r then 0 < a_pad a /\ pad = Z.max 0 (a_pad a - (rc_size r - 2)) else pad = a_pad a) -> 2 <= rc_size r ->
    effect a b r (after a (a_queue a) (a_sent a) asked (rc_seq r + 1) pad tw)
| ef_blank : forall b r asked pad tw, is_blank a b r -> a_next a <= rc_seq r -> sequence_number (rc_hdr r) = rc_seq r mod U16 ->
    sublist asked (a_asked a) -> 0 < a_pad a -> pad = Z.max 0 (a_pad a - rc_size r) -> 16 <= rc_size r ->
    effect a b r (after a (a_queue a) (a_sent a) asked (rc_seq r + 1) pad tw).

Lemma step_packet a o b r a' : sstep a o (YPacket b r) a' -> effect a b r a'.
Proof.
  intro H. inversion H as [| |now m en ps y a1 P| | | | | | | |? ? K1 K2]; subst; [|destruct K2].
  inversion P as [w q hb bd asked E KN SA tw HW BO|w rpt rs n asked hb bd IN NK RP ER NX SA tw HW BO
    |w rpt rs n asked hb bd IN NK RP ER NX SA P50 NQ tw HW BO|pt rpt rs n asked hb len k RP ER NX SA P0 E1 E2 E3 NQ tw HW| |]; subst.
  - eapply ef_main; [|exact E|exact SA]. split; [reflexivity|]. split; [reflexivity|]. split; [|reflexivity].
    unfold payload_of. cbn [snd fst rc_hdr main_header header_len]. rewrite skip_header by reflexivity. exact BO.
  - match goal with |- effect a ?b ?r _ => apply (ef_rtx a b r w asked (a_pad a) (a_twcc a + b2z en)) end; [|exact NX|reflexivity|exact SA|reflexivity|cbn [rc_size]; pose proof (zlen_nonneg (w_pay w)); lia].
    split; [exact ER|]. split; [exact IN|]. split; [exact NK|]. exists bd. split; [exact BO|]. split; [|split; reflexivity].
    unfold payload_of. cbn [snd fst rc_hdr rtx_header header_len]. apply skip_header. reflexivity.
  - match goal with |- effect a ?b ?r _ => apply (ef_rtx a b r w asked (Z.max 0 (a_pad a - zlen (w_pay w))) (a_twcc a + b2z en)) end; [|exact NX|reflexivity|exact SA| |cbn [rc_size]; pose proof (zlen_nonneg (w_pay w)); lia].
    + split; [exact ER|]. split; [exact IN|]. split; [exact NK|]. exists bd. split; [exact BO|]. split; [|split; reflexivity].
      unfold payload_of. cbn [snd fst rc_hdr rtx_header header_len]. apply skip_header. reflexivity.
    + cbn [rc_pad rc_size]. split; [lia|]. f_equal. lia.
  - match goal with |- effect a ?b ?r _ => apply (ef_blank a b r asked (Z.max 0 (a_pad a - 16 * k)) (a_twcc a + b2z en)) end; [|exact NX|reflexivity|exact SA|exact P0|reflexivity|cbn [rc_size]; lia].
    split; [exact ER|]. split; [reflexivity|]. exists (16 * k). split; [lia|].
    unfold payload_of. cbn [snd fst rc_hdr blank_header header_len]. apply skip_header. reflexivity.
Qed.

(** steps without a packet *)
Lemma step_quiet a o y a' : sstep a o y a' -> keeps_ssrc o -> (forall b r, y <> YPacket b r) -> op_ok o -> 0 <= a_pad a ->
  a_ssrc a' = a_ssrc a /\ a_rtx a' = a_rtx a /\
  (exists q, sublist (map fst (a_queue a')) (q ++ writes [o]) /\ sublist q (map fst (a_queue a))) /\
  (forall w, In w (a_sent a') -> In w (a_sent a)) /\
  sublist (a_asked a') (a_asked a ++ nacked [o]) /\ a_next a <= a_next a' /\
  0 <= a_pad a' <= a_pad a + requested [o] /\ 0 <= requested [o].
Proof.
  intros H KS NY OK PP.
  assert (sublist (map fst (a_queue a)) (map fst (a_queue a) ++ [])) as SQ by (rewrite app_nil_r; apply sublist_refl).
  assert (sublist (a_asked a) (a_asked a ++ [])) as SK by (rewrite app_nil_r; apply sublist_refl).
  inversion H as [w|now au c f|now m en ps y1 a1 P|now es asked S|now r|now f F|n pad P|mx ag cap| |ns nr q1 q2|? ? K1 K2]; subst;
    cbn [after a_ssrc a_rtx a_queue a_sent a_asked a_next a_pad writes nacked requested flat_map fold_right].
  - spl; try lia; try (intros; assumption); try reflexivity; try (rewrite app_nil_r; assumption).
    exists (map fst (a_queue a)). split; [rewrite map_app; apply sublist_refl|apply sublist_refl].
  - spl; try lia; try (intros; assumption); try reflexivity; try (rewrite app_nil_r; assumption).
    exists (map fst (a_queue a)). rewrite map_map. cbn [fst]. split; [exact SQ|apply sublist_refl].
  - inversion P as [| | | |w q asked E NK SA|asked nx pad E SA NX PB]; subst;
      [exfalso; eapply NY; reflexivity..| |];
      cbn [after a_ssrc a_rtx a_queue a_sent a_asked a_next a_pad].
    + spl; try lia; try (intros; assumption); try reflexivity; try (rewrite app_nil_r; assumption).
      exists (map fst q). split; [rewrite app_nil_r; apply sublist_refl|]. rewrite E. cbn [map]. apply sub_skip, sublist_refl.
    + spl; try lia; try (intros; assumption); try reflexivity; try (rewrite app_nil_r; assumption).
      exists (map fst (a_queue a)). split; [exact SQ|apply sublist_refl].
  - spl; try lia; try (intros; assumption); try reflexivity; try (rewrite app_nil_r; assumption).
    exists (map fst (a_queue a)). split; [exact SQ|apply sublist_refl].
  - spl; try lia; try (intros; assumption); try reflexivity; try (rewrite app_nil_r; assumption).
    exists (map fst (a_queue a)). split; [exact SQ|apply sublist_refl].
  - spl; try lia; try (intros; assumption); try reflexivity; [|].
    + exists (map fst (a_queue a')). split; [exact SQ|apply sublist_refl].
    + destruct f; try contradiction; exact SK.
  - cbn [op_ok] in OK. spl; try (intros; assumption); try reflexivity; try lia.
    exists (map fst (a_queue a)). split; [exact SQ|apply sublist_refl].
  - spl; try lia; try (intros; assumption); try reflexivity; [|intros w []].
    exists (map fst (a_queue a)). split; [exact SQ|apply sublist_refl].
  - spl; try reflexivity; try lia; [exists []; split; [apply (sub_nil _)|apply (sub_nil _)]|intros w []|apply (sub_nil _)].
  - destruct KS.
  - destruct o; try contradiction; spl; try lia; try (intros; assumption); try reflexivity;
      try exact SK; exists (map fst (a_queue a')); (split; [exact SQ|apply sublist_refl]).
Qed.

Lemma step_poll a o b r a' : sstep a o (YPacket b r) a' -> exists now m en ps, o = XPoll now m en ps.
Proof. intro H. inversion H as [| |now m en ps y a1 P| | | | | | | |? ? K1 K2]; subst; [eauto|destruct K2]. Qed.
Lemma effect_ids a b r a' : effect a b r a' -> a_ssrc a' = a_ssrc a /\ a_rtx a' = a_rtx a.
Proof. intros [?|?|?]; split; reflexivity. Qed.
Lemma not_packet y : (forall b r, y <> YPacket b r) -> forall ys, packets (y :: ys) = packets ys.
Proof. intros H ys. destruct y; try reflexivity. destruct (H _ _ eq_refl). Qed.
Lemma packet_dec y : (exists b r, y = YPacket b r) \/ forall b r, y <> YPacket b r.
Proof. destruct y; try (right; discriminate). left. eauto. Qed.

Section Run.
Variables (ss rs : Z).
Hypothesis NE : rs <> ss.
Definition Id (a : spec) : Prop := a_ssrc a = ss /\ (forall x, a_rtx a = Some x -> x = rs) /\ 0 <= a_pad a.
Lemma id_effect a b r a' : Id a -> effect a b r a' -> Id a'.
Proof.
  intros (H1 & H2 & H3) E. destruct (effect_ids _ _ _ _ E) as [E1 E2]. unfold Id. rewrite E1, E2. repeat (split; [assumption|]).
  inversion E as [| ? ? ? ? ? ? ? ? ? ? P|]; subst; cbn [after a_pad]; [lia| |lia]. destruct (rc_pad r); lia.
Qed.
Lemma id_quiet a o y a' : Id a -> sstep a o y a' -> keeps_ssrc o -> (forall b r, y <> YPacket b r) -> op_ok o -> Id a'.
Proof.
  intros (H1 & H2 & H3) S K N O. destruct (step_quiet _ _ _ _ S K N O H3) as (E1 & E2 & _ & _ & _ & _ & P & _).
  unfold Id. rewrite E1, E2. repeat (split; [assumption|]). lia.
Qed.
Lemma main_rtx a b r : Id a -> a_rtx a = Some (ssrc (rc_hdr r)) -> on_ssrc ss (b, r) = false /\ on_ssrc rs (b, r) = true.
Proof. intros (_ & H2 & _) E. specialize (H2 _ E). unfold on_ssrc. cbn [snd]. split; lia. Qed.
Lemma main_main a b r : Id a -> ssrc (rc_hdr r) = a_ssrc a -> on_ssrc ss (b, r) = true /\ on_ssrc rs (b, r) = false.
Proof. intros (H1 & _) E. unfold on_ssrc. cbn [snd]. rewrite E, H1. split; lia. Qed.

Lemma run_main ops : forall a ys a', srun a ops ys a' -> Forall keeps_ssrc ops -> Forall op_ok ops -> Id a ->
  sublist (map out_key (filter (on_ssrc ss) (packets ys))) (map write_key (map fst (a_queue a) ++ writes ops)).
Proof.
  induction ops as [|o ops IH]; intros a ys a' H K O I; inversion H as [|? ? y a1 ? ys1 ? S T]; subst; [constructor|].
  inversion K as [|? ? K1 K2]; subst. inversion O as [|? ? O1 O2]; subst.
  destruct (packet_dec y) as [(b & r & ->)|N].
  - pose proof (step_packet _ _ _ _ _ S) as E. destruct (step_poll _ _ _ _ _ S) as (now & m & en & ps & ->).
    specialize (IH _ _ _ T K2 O2 (id_effect _ _ _ _ I E)).
    change (packets (YPacket b r :: ys1)) with ((b, r) :: packets ys1). cbn [filter].
    change (writes (XPoll now m en ps :: ops)) with (writes ops).
    inversion E as [? ? w q asked tw (M1 & M2 & _) EQ|? ? w asked pad tw (M1 & _)|? ? asked pad tw (M1 & _)]; subst.
    + destruct (main_main a b r I M1) as [-> _]. cbn [map app]. rewrite EQ, M2. cbn [map fst app]. apply sub_keep, IH.
    + destruct (main_rtx a b r I M1) as [-> _]. exact IH.
    + destruct (main_rtx a b r I M1) as [-> _]. exact IH.
  - rewrite (not_packet _ N). specialize (IH _ _ _ T K2 O2 (id_quiet _ _ _ _ I S K1 N O1)).
    destruct I as (_ & _ & PP). destruct (step_quiet _ _ _ _ S K1 N O1 PP) as (_ & _ & (q & Q1 & Q2) & _).
    eapply sublist_trans; [|exact IH]. apply sublist_map.
    change (o :: ops) with ([o] ++ ops). unfold writes at 2. rewrite flat_map_app. change (flat_map _ [o]) with (writes [o]).
    rewrite app_assoc. apply sublist_app; [|apply sublist_refl].
    eapply sublist_trans; [|exact Q1]. apply sublist_app; [exact Q2|apply sublist_refl].
Qed.

Lemma run_rtx ops : forall a ys a', srun a ops ys a' -> Forall keeps_ssrc ops -> Forall op_ok ops -> Id a ->
  let l := map (fun p => rc_seq (snd p)) (filter (on_ssrc rs) (packets ys)) in
  StronglySorted Z.lt l /\ Forall (fun x => a_next a <= x) l.
Proof.
  induction ops as [|o ops IH]; intros a ys a' H K O I; inversion H as [|? ? y a1 ? ys1 ? S T]; subst; [split; constructor|].
  inversion K as [|? ? K1 K2]; subst. inversion O as [|? ? O1 O2]; subst.
  destruct (packet_dec y) as [(b & r & ->)|N].
  - pose proof (step_packet _ _ _ _ _ S) as E.
    destruct (IH _ _ _ T K2 O2 (id_effect _ _ _ _ I E)) as [IH1 IH2].
    change (packets (YPacket b r :: ys1)) with ((b, r) :: packets ys1). cbn [filter].
    inversion E as [? ? w q asked tw (M1 & M2 & _) EQ|? ? w asked pad tw (M1 & _) NX|? ? asked pad tw (M1 & _) NX]; subst;
      cbn [after a_next] in IH2.
    + destruct (main_main a b r I M1) as [_ ->]. split; assumption.
    + destruct (main_rtx a b r I M1) as [_ ->]. cbn [map snd]. split.
      * constructor; [exact IH1|]. eapply Forall_impl; [|exact IH2]. cbn. lia.
      * constructor; [exact NX|]. eapply Forall_impl; [|exact IH2]. cbn. lia.
    + destruct (main_rtx a b r I M1) as [_ ->]. cbn [map snd]. split.
      * constructor; [exact IH1|]. eapply Forall_impl; [|exact IH2]. cbn. lia.
      * constructor; [exact NX|]. eapply Forall_impl; [|exact IH2]. cbn. lia.
  - rewrite (not_packet _ N). destruct (IH _ _ _ T K2 O2 (id_quiet _ _ _ _ I S K1 N O1)) as [IH1 IH2]. split; [exact IH1|].
    destruct I as (_ & _ & PP). destruct (step_quiet _ _ _ _ S K1 N O1 PP) as (_ & _ & _ & _ & _ & NX & _).
    eapply Forall_impl; [|exact IH2]. cbn. lia.
Qed.

Lemma osn_repeats p w : repeats p w -> osn p = [w_seq w mod U16].
Proof.
  intros (bd & _ & E & _). unfold osn. rewrite E. unfold be16. cbn [app read_osn].
  rewrite rd16_be16 by (apply Z.mod_pos_bound; reflexivity). reflexivity.
Qed.

Lemma run_resent ops : forall a ys a', srun a ops ys a' -> Forall keeps_ssrc ops -> Forall op_ok ops -> Id a ->
  sublist (resent rs ys) (a_asked a ++ nacked ops).
Proof.
  induction ops as [|o ops IH]; intros a ys a' H K O I; inversion H as [|? ? y a1 ? ys1 ? S T]; subst; [constructor|].
  inversion K as [|? ? K1 K2]; subst. inversion O as [|? ? O1 O2]; subst.
  destruct (packet_dec y) as [(b & r & ->)|N].
  - pose proof (step_packet _ _ _ _ _ S) as E. destruct (step_poll _ _ _ _ _ S) as (now & m & en & ps & ->).
    specialize (IH _ _ _ T K2 O2 (id_effect _ _ _ _ I E)).
    unfold resent. change (packets (YPacket b r :: ys1)) with ((b, r) :: packets ys1). cbn [filter snd].
    change (nacked (XPoll now m en ps :: ops)) with (nacked ops).
    inversion E as [? ? w q asked tw (M1 & M2 & _) EQ SA|? ? w asked pad tw (M1 & M2 & M3 & M4) NX SQ SA|? ? asked pad tw (M1 & M2 & _) NX SQ SA]; subst;
      cbn [after a_asked] in IH.
    + destruct (main_main a b r I M1) as [_ ->]. cbn [andb]. eapply sublist_trans; [|exact IH].
      apply sublist_app; [exact SA|apply sublist_refl].
    + destruct (main_rtx a b r I M1) as [_ ->]. cbn [andb]. unfold rpart in SA. destruct (rc_pad r); cbn [negb].
      * eapply sublist_trans; [|exact IH]. apply sublist_app; [exact SA|apply sublist_refl].
      * cbn [flat_map]. rewrite (osn_repeats (b, r) w M4).
        eapply sublist_trans; [apply sublist_app; [exact SA|apply sublist_refl]|]. cbn [app]. apply sub_keep, IH.
    + destruct (main_rtx a b r I M1) as [_ ->]. rewrite M2. cbn [andb negb]. eapply sublist_trans; [|exact IH].
      apply sublist_app; [exact SA|apply sublist_refl].
  - unfold resent. rewrite (not_packet _ N). specialize (IH _ _ _ T K2 O2 (id_quiet _ _ _ _ I S K1 N O1)).
    destruct I as (_ & _ & PP). destruct (step_quiet _ _ _ _ S K1 N O1 PP) as (_ & _ & _ & _ & SA & _).
    eapply sublist_trans; [|exact IH]. change (o :: ops) with ([o] ++ ops). unfold nacked at 2. rewrite flat_map_app.
    change (flat_map _ [o]) with (nacked [o]). rewrite app_assoc. apply sublist_app; [exact SA|apply sublist_refl].
Qed.

Lemma sublist_in {A} (l m : list A) : sublist l m -> forall x, In x l -> In x m.
Proof. induction 1 as [m|z l m H IH|z l m H IH]; intros y Hy; [destruct Hy|destruct Hy as [<-|Hy]; [left; reflexivity|right; auto]|right; auto]. Qed.

Lemma run_repeats ops : forall a ys a', srun a ops ys a' -> Forall keeps_ssrc ops -> Forall op_ok ops -> Id a ->
  forall l1 p l2, packets ys = l1 ++ p :: l2 -> on_ssrc rs p = true ->
  blank p \/ exists w, w_nack w = true /\ repeats p w /\
    (In w (a_sent a) \/ In w (map fst (a_queue a) ++ writes ops) /\ exists p0, In p0 l1 /\ on_ssrc ss p0 = true /\
       out_key p0 = write_key w /\ body_of w (payload_of p0)).
Proof.
  induction ops as [|o ops IH]; intros a ys a' H K O I; inversion H as [|? ? y a1 ? ys1 ? S T]; subst.
  { intros [|? ?] ? ? E; discriminate E. }
  inversion K as [|? ? K1 K2]; subst. inversion O as [|? ? O1 O2]; subst.
  destruct (packet_dec y) as [(b & r & ->)|N].
  - pose proof (step_packet _ _ _ _ _ S) as E. destruct (step_poll _ _ _ _ _ S) as (now & m & en & ps & ->).
    specialize (IH _ _ _ T K2 O2 (id_effect _ _ _ _ I E)).
    change (packets (YPacket b r :: ys1)) with ((b, r) :: packets ys1).
    change (writes (XPoll now m en ps :: ops)) with (writes ops).
    intros l1 p l2 EP EO. destruct l1 as [|p0 l1]; cbn [app] in EP; injection EP as <- EP.
    + inversion E as [? ? w q asked tw (M1 & M2 & _) EQ SA|? ? w asked pad tw (M1 & M2 & M3 & M4) NX SQ SA|? ? asked pad tw (M1 & M2 & M3) NX SQ SA]; subst.
      * destruct (main_main a b r I M1) as [_ X]. congruence.
      * right. exists w. split; [exact M3|]. split; [exact M4|]. left. exact M2.
      * left. split; assumption.
    + destruct (IH _ _ _ EP EO) as [B|(w & W1 & W2 & W3)]; [left; exact B|]. right. exists w. split; [exact W1|]. split; [exact W2|].
      inversion E as [? ? w0 q asked tw (M1 & M2 & M3 & _) EQ SA|? ? w0 asked pad tw M|? ? asked pad tw M]; subst;
        cbn [after a_sent a_queue] in W3.
      * destruct W3 as [[<-|W3]|(W3 & p1 & P1 & P2)].
        -- right. split; [rewrite EQ; left; reflexivity|]. exists (b, r). split; [left; reflexivity|].
           split; [apply (main_main a b r I M1)|]. split; assumption.
        -- left. exact W3.
        -- right. split; [rewrite EQ; right; exact W3|]. exists p1. split; [right; exact P1|exact P2].
      * destruct W3 as [W3|(W3 & p1 & P1 & P2)]; [left; exact W3|]. right. split; [exact W3|]. exists p1. split; [right; exact P1|exact P2].
      * destruct W3 as [W3|(W3 & p1 & P1 & P2)]; [left; exact W3|]. right. split; [exact W3|]. exists p1. split; [right; exact P1|exact P2].
  - rewrite (not_packet _ N). specialize (IH _ _ _ T K2 O2 (id_quiet _ _ _ _ I S K1 N O1)). intros l1 p l2 EP EO.
    destruct (IH _ _ _ EP EO) as [B|(w & W1 & W2 & W3)]; [left; exact B|]. right. exists w. split; [exact W1|]. split; [exact W2|].
    destruct I as (_ & _ & PP). destruct (step_quiet _ _ _ _ S K1 N O1 PP) as (_ & _ & (q & Q1 & Q2) & SN & _).
    destruct W3 as [W3|(W3 & W4)]; [left; auto|]. right. split; [|exact W4].
    change (o :: ops) with ([o] ++ ops). unfold writes. rewrite flat_map_app. apply in_app_iff in W3 as [W3|W3].
    + apply (sublist_in _ _ Q1) in W3. apply in_app_iff in W3 as [W3|W3].
      * apply in_app_iff. left. apply (sublist_in _ _ Q2), W3.
      * rewrite app_assoc. apply in_app_iff. left. apply in_app_iff. right. exact W3.
    + rewrite app_assoc. apply in_app_iff. right. exact W3.
Qed.

Lemma run_padding ops : forall a ys a', srun a ops ys a' -> Forall keeps_ssrc ops -> Forall op_ok ops -> Id a ->
  (forall n, ~ In (XPad n) ops) ->
  forall l1 p l2, packets ys = l1 ++ p :: l2 -> rc_pad (snd p) = true -> 0 <= padding_sent l1 < a_pad a.
Proof.
  induction ops as [|o ops IH]; intros a ys a' H K O I NP; inversion H as [|? ? y a1 ? ys1 ? S T]; subst.
  { intros [|? ?] ? ? E; discriminate E. }
  inversion K as [|? ? K1 K2]; subst. inversion O as [|? ? O1 O2]; subst.
  assert (forall n, ~ In (XPad n) ops) as NP' by (intros n Hn; apply (NP n); right; exact Hn).
  destruct (packet_dec y) as [(b & r & ->)|N].
  - pose proof (step_packet _ _ _ _ _ S) as E. pose proof (id_effect _ _ _ _ I E) as I'.
    specialize (IH _ _ _ T K2 O2 I' NP').
    change (packets (YPacket b r :: ys1)) with ((b, r) :: packets ys1).
    intros l1 p l2 EP EO. destruct l1 as [|p0 l1]; cbn [app] in EP; injection EP as <- EP; cbn [padding_sent fold_right snd].
    + cbn [snd] in EO. inversion E as [? ? w q asked tw (M1 & M2 & M3 & M4) EQ SA|? ? w asked pad tw M NX SQ SA P SZ|? ? asked pad tw (M1 & M2 & M3) NX SQ SA P]; subst.
      * congruence.
      * rewrite EO in P. lia.
      * lia.
    + specialize (IH _ _ _ EP EO). fold (padding_sent l1).
      inversion E as [? ? w q asked tw (M1 & M2 & M3 & M4) EQ SA|? ? w asked pad tw M NX SQ SA P SZ|? ? asked pad tw (M1 & M2 & M3) NX SQ SA P Ep SZ]; subst;
        cbn [after a_pad] in IH.
      * rewrite M4. lia.
      * destruct (rc_pad r); [|lia]. destruct P as [P ->]. lia.
      * rewrite M2. lia.
  - rewrite (not_packet _ N). specialize (IH _ _ _ T K2 O2 (id_quiet _ _ _ _ I S K1 N O1) NP'). intros l1 p l2 EP EO.
    specialize (IH _ _ _ EP EO). destruct I as (_ & _ & PP). destruct (step_quiet _ _ _ _ S K1 N O1 PP) as (_ & _ & _ & _ & _ & _ & X & _).
    assert (requested [o] = 0) as RZ by (destruct o; try reflexivity; destruct (NP n); left; reflexivity). lia.
Qed.
End Run.

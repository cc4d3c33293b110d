(** C49: what is sent and received on data channels; C50: opening is bounded, polls return and
    nothing panics. For every SCTP implementation and every history. *)
From Verif Require Import Base BaseFacts DcepModel SctpModel SctpSpec SctpProofs SctpProofs2 SctpProofs3 SctpProofs4 SctpProofs5 SctpProofs6 SctpProofs7 SctpProofs8 SctpProofs9 SctpProps.
From Verif Require ChanModel ChanProps DcepProps.

Ltac rx := cbn [r_h r_confs r_s r_now o_r o_evs o_acts o_idle with_s with_h quiet] in *.
Ltac ex := cbn [e_id e_conf e_state e_close e_deadline e_thr e_set_state e_set_close e_set_conf e_set_deadline e_set_thr] in *.

Section L.
Context {A : Type} (P : proto A).

(** which operations touch streams *)
Lemma open_all_acts confs : forall l s s' t, open_all P s confs l = Ok (s', t) -> forall a, In a t -> exists id u ty p, a = ARel id u ty p.
Proof.
  induction l as [|[c id] l IH]; intros s s' t H; cbn [open_all] in H; [injection H as <- <-; intros a []|].
  destruct (conf_of confs c) as [cf|]; [|discriminate].
  destruct (open_stream P s id cf) as [[s1 t1]| |] eqn:OS; try discriminate. cbn [bind] in H.
  destruct (open_all P s1 confs l) as [[s2 t2]| |] eqn:OA; try discriminate. cbn [bind] in H. injection H as <- <-.
  intros a I. apply in_app_or in I as [I|I]; [|eapply IH; eauto]. clear IH OA. unfold open_stream in OS. destruct (entry_by_id _ id) as [e|]; [|discriminate].
  destruct (e_conf e); [injection OS as <- <-; destruct I|]. destruct (estate_eqb _ _); [|injection OS as <- <-; destruct I].
  destruct (in_band cf); [injection OS as <- <-; destruct I|]. destruct (negb _); [injection OS as <- <-; destruct I|]. destruct (negb _); [injection OS as <- <-; destruct I|].
  destruct (configure P _ _) as [[[[ok w] e2] t']| |] eqn:C; try discriminate. cbn [bind] in OS. injection OS as <- <-. apply configure_spec in C as (cf' & _ & _ & ->).
  destruct I as [<-|[]]. unfold rel_act. eauto.
Qed.

Lemma acts_of r o x a : step P r o = Ok x -> In a (o_acts x) ->
  (exists f b, o = OPoll f b) \/ match a with
  | AWrite id p buf => exists c b, o = OWrite c b buf /\ ChanModel.stream_by_channel (r_h r) c = Some id /\ usable r c = true /\
      p = write_ppi b buf /\ o_acts x = [AWrite id p buf] /\ zlen buf <= available P (r_s r)
  | AClose id => exists c, o = OClose c
  | ARel _ _ _ _ => exists now w, o = OTimeout now w
  | _ => False end.
Proof.
  intros H I. destruct o; cbn [step] in H.
  - destruct (ChanModel.new_channel _ _) as [[h id]| |]; try discriminate. cbn [bind] in H. injection H as <-. destruct I.
  - destruct (conf_of _ _); [|discriminate]. destruct (ChanModel.confirm _ _); try discriminate. cbn [bind] in H. injection H as <-. destruct I.
  - right. destruct (ChanModel.stream_by_channel _ _); [destruct (close_stream _ _ _) as [s t] eqn:C|]; injection H as <-; [|destruct I]. rx.
    unfold close_stream in C. destruct (entry_by_id _ _); [|injection C as <- <-; destruct I]. destruct (propagate_close P _ _ _ z) as [[[b w] rp] t'] eqn:PC. injection C as <- <-.
    apply propagate_acts in PC as [->| ->]; [destruct I|]. destruct I as [<-|[]]. eauto.
  - destruct (s_st (r_s r)); [destruct (init _ _ _ _ _); try discriminate; cbn [bind] in H|..]; injection H as <-; destruct I.
  - injection H as <-. destruct I.
  - destruct (now <? r_now r); [injection H as <-; destruct I|]. destruct (ChanModel.handle_timeout _ _ _) as [h l]. destruct (open_all P _ _ _) as [[s1 t]| |] eqn:OA; try discriminate. cbn [bind] in H. injection H as <-. rx.
    destruct (open_all_acts _ _ _ _ _ OA a I) as (id & u & ty & p & ->). right. eauto.
  - left. eauto.
  - right. destruct (usable r id) eqn:U; cbn [negb] in H; [|injection H as <-; destruct I]. destruct (ChanModel.stream_by_channel (r_h r) id) as [sid|] eqn:SB; [|discriminate].
    destruct (Z.ltb_spec (available P (r_s r)) (zlen buf)); [injection H as <-; destruct I|].
    destruct (write P (r_s r) sid binary buf) as [[s t]| |] eqn:W; try discriminate; injection H as <-; [|destruct I]. rx. unfold write in W.
    destruct (s_st (r_s r)); try discriminate. destruct (_ || _); [discriminate|]. destruct (entry_by_id _ _); [|discriminate].
    destruct (negb _); [discriminate|]. destruct (negb _); [discriminate|]. destruct (p_write P _ _ _ _) as [ok w]. destruct ok; [|discriminate]. injection W as <- <-.
    destruct I as [<-|[]]. eauto 10.
  - destruct (negb _); [injection H as <-; destruct I|]. destruct (ChanModel.stream_by_channel _ _); [|discriminate]. destruct (set_threshold _ _ _); try discriminate. cbn [bind] in H. injection H as <-. destruct I.
Qed.

Lemma is_data_iff p buf b d : user_data p buf b d <-> is_data p = true /\ b = is_binary p /\ d = adjust p buf.
Proof.
  split.
  - intros []; auto.
  - destruct p; intros (H & -> & ->); try discriminate; constructor.
Qed.
End L.

(** ** C49 *)

(** A ChannelData event is one message just read from the channel's stream: same content, binary or
    text as its protocol identifier says, nothing for the "empty" identifiers. *)
Theorem C49_delivered : forall A (P : proto A) w now ph os r tr o x, run P (rtc0 w now ph) os = Ok (r, tr) -> step P r o = Ok x ->
  forall c b d, In (UData c b d) (o_evs x) ->
  o_evs x = [UData c b d] /\ exists id p buf t, ChanModel.stream_by_channel (r_h r) c = Some id /\ user_data p buf b d /\ o_acts x = t ++ [ARead id p buf] /\
    forall id' p' buf' b' d', In (ARead id' p' buf') t -> ~ user_data p' buf' b' d'.
Proof.
  intros A P w now ph os r tr o x R S c b d K. pose proof (ru_inv _ _ _ _ (run_spec P os _ _ _ _ (inv0 w now ph) R)) as I. cbn [app] in I.
  pose proof (step_spec P r tr o x I S) as SP. assert (o_evs x = [UData c b d]) as ONE.
  { destruct (sp_one _ _ _ _ SP) as [E|(u & E)]; rewrite E in K; [destruct K|]. destruct K as [->|[]]. exact E. }
  split; [exact ONE|].
  destruct (evs_poll P r o x S) as (fuel & blocked & ->); [rewrite ONE; discriminate|]. cbn [step] in S.
  destruct (do_poll P fuel (r_s r)) as [[[ev s'] t]| |] eqn:DP; try discriminate. cbn [bind] in S.
  destruct (do_poll_spec P (r_h r) (r_confs r) (announced tr) fuel (r_s r) ev s' t (i_base _ _ I) (i_dl _ _ I) DP) as (PO & _ & _).
  destruct ev as [ev|]; [|injection S as <-; discriminate]. destruct (translate _ _ _) as [[r' us]| |] eqn:T; try discriminate. cbn [bind] in S. injection S as <-. rx. subst us.
  destruct ev; cbn [translate] in T; rx;
    try (exfalso; repeat (match type of T with
      | context [bind ?y _] => destruct y eqn:?; cbn [bind] in T; try discriminate
      | context [match ?y with _ => _ end] => destruct y eqn:?; try discriminate
      end); discriminate).
  destruct (ChanModel.channel_by_stream (r_h r) id) as [c'|] eqn:CB; [|discriminate]. injection T as _ -> -> ->.
  inversion PO as [E|sv E SV|id0 b0 d0 e p buf t1 E EV B L CL ET TQ DA EB ED|id0 pd es1 e e' E|id0 lb es1 e e' t1 t2 E]; try discriminate; [injection E as <-; contradiction|].
  injection E as <- <- <-. exists id, p, buf, t1. split; [apply sbc_on; [apply (i_good _ _ I)|]; apply cbs_on; [apply (i_good _ _ I)|exact CB]|]. split; [apply is_data_iff; auto|]. split; [exact ET|].
  intros id' p' buf' b' d' IN UD. apply is_data_iff in UD as (UD & _). destruct TQ as [NR _]. rewrite (NR _ _ _ IN) in UD. discriminate.
Qed.
Print Assumptions C49_delivered.

(** Every message read from the stream of a channel is given to the application at once. *)
Theorem C49_received : forall A (P : proto A) w now ph os r tr o x, run P (rtc0 w now ph) os = Ok (r, tr) -> step P r o = Ok x ->
  forall id p buf b d, In (ARead id p buf) (o_acts x) -> user_data p buf b d ->
  o_evs x = match ChanModel.channel_by_stream (r_h r) id with Some c => [UData c b d] | None => [] end.
Proof.
  intros A P w now ph os r tr o x R S id p buf b d K UD. pose proof (ru_inv _ _ _ _ (run_spec P os _ _ _ _ (inv0 w now ph) R)) as I. cbn [app] in I.
  destruct (acts_of P r o x _ S K) as [(f & bl & ->)|[]]. cbn [step] in S.
  destruct (do_poll P f (r_s r)) as [[[ev s'] t]| |] eqn:DP; try discriminate. cbn [bind] in S.
  destruct (do_poll_spec P (r_h r) (r_confs r) (announced tr) f (r_s r) ev s' t (i_base _ _ I) (i_dl _ _ I) DP) as (PO & _ & _).
  apply is_data_iff in UD as (DA & -> & ->).
  assert (o_acts x = t) as ET.
  { destruct ev; [|injection S as <-; reflexivity]. destruct (translate _ _ _) as [[r' us]| |]; try discriminate. cbn [bind] in S. injection S as <-. reflexivity. }
  rewrite ET in K.
  destruct PO as [E EV B TQ IDL|sv E SV EV B TQ|id0 b0 d0 e p0 buf0 t1 E EV B L CL ET1 TQ DA0 EB ED|id0 pend es1 e e' E EV B L NCL ID W ES TQ|id0 label es1 e e' t1 t2 E EV B L ID W CF KC HO ES ET1 TQ1 TQ2 SE SA];
    try (exfalso; destruct TQ as [NR _]; rewrite (NR _ _ _ K) in DA; discriminate).
  - subst t. apply in_app_or in K as [K|K]; [exfalso; destruct TQ as [NR _]; rewrite (NR _ _ _ K) in DA; discriminate|]. destruct K as [K|[]]. injection K as -> -> ->.
    subst ev. cbn [translate] in S. rx. destruct (ChanModel.channel_by_stream (r_h r) id); cbn [bind] in S; injection S as <-; rx; subst; reflexivity.
  - exfalso. subst t. destruct (tq_app _ _ _ _ TQ1 TQ2) as [NR _]. rewrite (NR _ _ _ K) in DA. discriminate.
Qed.
Print Assumptions C49_received.

Lemma fits A (P : proto A) s (buf : list Z) : buf <> [] -> zlen buf <= available P s -> waiting P s + zlen buf <= 131072.
Proof.
  intros NB L. assert (0 < zlen buf) as B by (destruct buf; [congruence|unfold zlen; cbn [length]; lia]).
  unfold available in L. destruct (s_assoc s); [|lia]. unfold MAX_BUFFERED in L.
  assert (forall l, fold_right Z.add 0 l = list_sum_Z l) as E by (induction l as [|x l IH]; cbn; congruence).
  rewrite E in L. fold (waiting P s) in L. lia.
Qed.

(** What is written to streams: the application's message, whole, once, on the channel's stream, under
    the identifier that makes the peer read the same message of the same kind, and only when it fits
    under the limit; the DCEP OPEN of a channel created here right after its stream was opened and set
    to the configured reliability; the DCEP ACK right after a peer's OPEN was read and applied. *)
Theorem C49_written : forall A (P : proto A) w now ph os r tr o x, run P (rtc0 w now ph) os = Ok (r, tr) -> step P r o = Ok x ->
  forall id p buf, In (AWrite id p buf) (o_acts x) ->
  (exists c b, o = OWrite c b buf /\ ChanModel.stream_by_channel (r_h r) c = Some id /\ usable r c = true /\ user_data p buf b buf /\
     (buf = [] <-> p = PStringEmpty \/ p = PBinaryEmpty) /\ o_acts x = [AWrite id p buf] /\ (buf <> [] -> waiting P (r_s r) + zlen buf <= 131072)) \/
  (exists f bl, o = OPoll f bl) /\ p = PDcep /\
  ((exists c cf t1 t2, ChanModel.stream_by_channel (r_h r) c = Some id /\ In (ICall (ONew cf)) tr /\ c_negotiated cf = None /\ send_open cf = Ok buf /\
      o_acts x = t1 ++ [AOpened id; ARel id (negb (c_ordered cf)) (fst (rel_wire (c_rel cf))) (snd (rel_wire (c_rel cf))); AWrite id PDcep buf] ++ t2) \/
   (buf = [2] /\ exists m d t1 t2, open_read m = Ok d /\
      o_acts x = t1 ++ [ARead id PDcep m; ARel id (d_unordered d) (d_type d) (match d_type d with TReliable => 0 | _ => d_param d mod 65536 end); AWrite id PDcep buf] ++ t2)).
Proof.
  intros A P w now ph os r tr o x R S id p buf K. pose proof (ru_inv _ _ _ _ (run_spec P os _ _ _ _ (inv0 w now ph) R)) as I. cbn [app] in I.
  destruct (acts_of P r o x _ S K) as [(f & bl & ->)|(c & b & -> & SB & U & EP & EA & LE)].
  2:{ left. exists c, b. split; [reflexivity|]. split; [exact SB|]. split; [exact U|]. subst p. split; [destruct b, buf; constructor|]. split; [|split; [exact EA|intro NB; exact (fits A P (r_s r) buf NB LE)]].
      destruct b, buf; cbn [write_ppi]; split; intro X; try discriminate; auto; destruct X; discriminate. }
  right. split; [eauto|]. cbn [step] in S.
  destruct (do_poll P f (r_s r)) as [[[ev s'] t]| |] eqn:DP; try discriminate. cbn [bind] in S.
  destruct (do_poll_spec P (r_h r) (r_confs r) (announced tr) f (r_s r) ev s' t (i_base _ _ I) (i_dl _ _ I) DP) as (PO & _ & _).
  assert (o_acts x = t) as ET.
  { destruct ev; [|injection S as <-; reflexivity]. destruct (translate _ _ _) as [[r' us]| |]; try discriminate. cbn [bind] in S. injection S as <-. reflexivity. }
  rewrite ET in *. 
  assert (wrote (r_h r) (r_confs r) t) as WR.
  { destruct PO as [E EV B TQ IDL|sv E SV EV B TQ|id0 b0 d0 e p0 buf0 t1 E EV B L CL ET1 TQ DA0 EB ED|id0 pend es1 e e' E EV B L NCL ID W ES TQ|id0 label es1 e e' t1 t2 E EV B L ID W CF KC HO ES ET1 TQ1 TQ2 SE SA];
      try (apply (proj2 TQ)).
    - rewrite ET1. apply wrote_app; [apply (proj2 TQ)|]. intros i q bf [X|[]]. discriminate.
    - rewrite ET1. apply wrote_app; [apply (proj2 TQ1)|apply (proj2 TQ2)]. }
  destruct (WR _ _ _ K) as (-> & [(c & cf & t1 & t2 & H1 & H2 & H3 & H4 & H5)|(-> & m & d & t1 & t2 & H1 & H2)]); (split; [reflexivity|]).
  - left. exists c, cf, t1, t2. split; [apply sbc_on; [apply (i_good _ _ I)|]; apply cbs_on; [apply (i_good _ _ I)|exact H1]|].
    split; [destruct (run_confs P os _ _ _ _ _ R H2) as [X|X]; [discriminate|exact X]|].
    split; [unfold in_band in H3; destruct (c_negotiated cf); [discriminate|reflexivity]|]. split; [exact H4|exact H5].
  - right. split; [reflexivity|]. exists m, d, t1, t2. split; [exact H1|]. rewrite H2. unfold rel_act, dcep_of_config, config_of_dcep. cbn [d_unordered d_type d_param c_ordered c_rel c_label c_proto].
    rewrite Bool.negb_involutive. destruct (d_type d); reflexivity.
Qed.
Print Assumptions C49_written.

(** What ChannelOpen rests on. (a) a channel created here with a negotiated stream id, its stream set to
    its reliability; (b) a channel created here, whose DCEP OPEN the peer has just acknowledged; (c) a
    peer's DCEP OPEN just read, applied and acknowledged. The label is that of the configuration
    or of the peer's message. The handle is there. *)
Theorem C48_announcement : forall A (P : proto A) w now ph os r tr o x, run P (rtc0 w now ph) os = Ok (r, tr) -> step P r o = Ok x ->
  forall c label, In (UOpen c label) (o_evs x) -> usable (o_r x) c = true /\
  exists id t, ChanModel.stream_by_channel (r_h (o_r x)) c = Some id /\
  ((exists cf, conf_of (r_confs r) c = Some cf /\ In (ICall (ONew cf)) tr /\ c_negotiated cf <> None /\ label = c_label cf /\
      o_acts x = t ++ [ARel id (negb (c_ordered cf)) (fst (rel_wire (c_rel cf))) (snd (rel_wire (c_rel cf)))]) \/
   (exists cf rest, conf_of (r_confs r) c = Some cf /\ In (ICall (ONew cf)) tr /\ c_negotiated cf = None /\ label = c_label cf /\
      o_acts x = t ++ [ARead id PDcep (2 :: rest)]) \/
   (exists m d, open_read m = Ok d /\ label = d_label d /\
      o_acts x = t ++ [ARead id PDcep m; ARel id (d_unordered d) (d_type d) (match d_type d with TReliable => 0 | _ => d_param d mod 65536 end); AWrite id PDcep [2]])).
Proof.
  intros A P w now ph os r tr o x R S c label K. pose proof (ru_inv _ _ _ _ (run_spec P os _ _ _ _ (inv0 w now ph) R)) as I. cbn [app] in I.
  pose proof (step_spec P r tr o x I S) as SP. assert (o_evs x = [UOpen c label]) as ONE.
  { destruct (sp_one _ _ _ _ SP) as [E|(u & E)]; rewrite E in K; [destruct K|]. destruct K as [->|[]]. exact E. }
  assert (usable (o_r x) c = true) as US.
  { pose proof (sp_inv _ _ _ _ SP) as I'. apply (usable_on _ _ _ I'). destruct (i_ann _ _ I' c) as [X|X]; [apply ann_app; right; exists label; exact K| |exact X].
    exfalso. apply closed_app in X. rewrite ONE in X. destruct X as [X|[X|[]]]; [|discriminate]. pose proof (sp_ev _ _ _ _ SP _ K) as [_ AL]. apply AL. unfold closed. apply in_or_app. auto. }
  split; [exact US|].
  destruct (evs_poll P r o x S) as (fuel & blocked & ->); [rewrite ONE; discriminate|]. cbn [step] in S.
  destruct (do_poll P fuel (r_s r)) as [[[ev s'] t]| |] eqn:DP; try discriminate. cbn [bind] in S.
  destruct (do_poll_spec P (r_h r) (r_confs r) (announced tr) fuel (r_s r) ev s' t (i_base _ _ I) (i_dl _ _ I) DP) as (PO & _ & _).
  destruct ev as [ev|]; [|injection S as <-; discriminate]. destruct (translate _ _ _) as [[r' us]| |] eqn:T; try discriminate. cbn [bind] in S. injection S as <-. rx. subst us.
  destruct ev; cbn [translate] in T; rx;
    try (exfalso; repeat (match type of T with
      | context [bind ?y _] => destruct y eqn:?; cbn [bind] in T; try discriminate
      | context [match ?y with _ => _ end] => destruct y eqn:?; try discriminate
      end); discriminate).
  destruct (ChanModel.channel_by_stream _ id) as [c'|] eqn:CB; [|discriminate]. injection T as <- -> ->. rx.
  inversion PO as [E|sv E SV|id0 b0 d0 e p buf t1 E|id0 pd es1 e e' E|id0 lb es1 e e' t1 t2 E EV B L ID W CF KC HO ES ET TQ1 TQ2 SE SA]; try discriminate; [injection E as <-; contradiction|].
  injection E as <- <-. destruct (ensure_on (r_h r) id (i_good _ _ I)) as (N1 & N2 & N3 & N4 & N5 & _ & N7). 
  assert (on (ChanModel.ensure_channel_id_for (r_h r) id) c id) as O by (apply cbs_on; auto).
  pose proof (look_in _ _ _ L) as [LI LID]. pose proof (proj2 B e LI) as OK.
  assert (forall cf, owned (r_h r) (r_confs r) e cf -> conf_of (r_confs r) c = Some cf /\ In (ICall (ONew cf)) tr /\ e_conf e = Some cf) as OW.
  { intros cf (c0 & O1 & O2 & O3). apply cbs_on in O1; [|apply (i_good _ _ I)]. rewrite LID in O1. assert (c0 = c) as -> by exact (on_inj _ _ _ _ N1 (N3 _ _ O1) O).
    split; [exact O2|]. split; [|exact O3]. destruct (run_confs P os _ _ _ _ _ R O2) as [X|X]; [discriminate|exact X]. }
  exists id. destruct HO as [cf W0 C0 IB EL AC|cf buf W0 C0 AK EL AC|d buf W0 C0 OR EL AC]; rewrite LID in AC.
  - unfold eok in OK. rewrite W0 in OK. destruct OK as (cf' & OK). destruct (OW _ OK) as (X1 & X2 & X3). assert (cf' = cf) as -> by congruence.
    assert (exists t0, t2 = t0 ++ [rel_act id cf]) as (t0 & ET2) by (destruct AC as [->| ->]; [exists [AOpened id]|exists []]; reflexivity).
    exists (t1 ++ t0). split; [apply sbc_on; auto|]. left. exists cf. split; [exact X1|]. split; [exact X2|]. split; [|split; [exact EL|]].
    + unfold in_band in IB. destruct (c_negotiated cf); discriminate.
    + rewrite ET, ET2, <- app_assoc. reflexivity.
  - unfold eok in OK. rewrite W0 in OK. destruct OK as (cf' & OK & IB). destruct (OW _ OK) as (X1 & X2 & X3). assert (cf' = cf) as -> by congruence.
    exists t1. split; [apply sbc_on; auto|]. right. left. apply (proj1 (DcepProps.C29_ack buf)) in AK as (rest & ->). exists cf, rest. repeat split; auto; [|congruence].
    unfold in_band in IB. destruct (c_negotiated cf); [discriminate|reflexivity].
  - exists t1. split; [apply sbc_on; auto|]. right. right. exists buf, d. split; [exact OR|]. split; [exact EL|]. rewrite ET, AC. f_equal.
    unfold rel_act, dcep_of_config, config_of_dcep. cbn [d_unordered d_type d_param c_ordered c_rel c_label c_proto]. rewrite Bool.negb_involutive. destruct (d_type d); reflexivity.
Qed.
Print Assumptions C48_announcement.

(** ** C50 *)

(** The channel has its stream number but the stream is not there yet (it is still being reset, or the
    peer has it). *)
Definition waiting {A} (r : @rtc A) (c : Z) : Prop :=
  exists id e, ChanModel.stream_by_channel (r_h r) c = Some id /\ entry_by_id (s_entries (r_s r)) id = Some e /\ e_state e = AwaitOpen.
Definition established {A} (r : @rtc A) : Prop := s_st (r_s r) = Established.

(** No channel waits for its stream longer than 10 seconds: if it waits when a poll has nothing more, then
    it does not any more when a poll has nothing more 10 seconds (or more) later. *)
Theorem C50_wait_is_bounded : forall A (P : proto A) w now ph os1 r1 tr1 o1 x1 os2 r2 tr2 o2 x2,
  run P (rtc0 w now ph) os1 = Ok (r1, tr1) -> step P r1 o1 = Ok x1 -> o_idle x1 = true -> established (o_r x1) ->
  run P (o_r x1) os2 = Ok (r2, tr2) -> step P r2 o2 = Ok x2 -> o_idle x2 = true ->
  r_now (o_r x2) >= r_now (o_r x1) + 10000000000 ->
  forall c, waiting (o_r x1) c -> ~ waiting (o_r x2) c.
Proof.
  intros A P w now ph os1 r1 tr1 o1 x1 os2 r2 tr2 o2 x2 R1 S1 ID1 E1 R2 S2 ID2 T c (id & e & SB & L & W) (id2 & e2 & SB2 & L2 & W2).
  pose proof (ru_inv _ _ _ _ (run_spec P os1 _ _ _ _ (inv0 w now ph) R1)) as I1. cbn [app] in I1.
  pose proof (step_spec P _ _ _ _ I1 S1) as SP1. pose proof (sp_inv _ _ _ _ SP1) as I1'.
  destruct (run_spec P os2 _ _ _ _ I1' R2) as [I2 _ _ FW _ ES2]. pose proof (step_spec P _ _ _ _ I2 S2) as SP2. pose proof (sp_inv _ _ _ _ SP2) as I2'.
  apply sbc_on in SB; [|apply (i_good _ _ I1')]. apply sbc_on in SB2; [|apply (i_good _ _ I2')].
  pose proof (look_in _ _ _ L) as [LI _]. destruct (sp_wait _ _ _ _ SP1 ID1 E1 e LI W) as (d & D1 & D2).
  assert (d <= r_now (o_r x1) + OPEN_TIMEOUT) as DL.
  { pose proof (i_dl _ _ I1' e LI W d D1) as X. destruct (i_clock _ _ I1') as [Y|Y]; [rewrite <- Y; exact X|exfalso; exact (Y e LI W)]. }
  destruct (FW c id e SB L) as [X|(O2 & e1 & L1 & M1)].
  { (* closed in between: unknown *)
    assert (closed ((tr1 ++ items o1 x1) ++ tr2 ++ items o2 x2) c) as K by (unfold closed in *; apply in_or_app; right; apply in_or_app; auto).
    rewrite app_assoc in K. apply (i_closed _ _ I2') in K as [K _]. apply K. eapply on_known; eauto. }
  destruct (sp_fwd _ _ _ _ SP2 c id e1 O2 L1) as [X|(O3 & e3 & L3 & M3)].
  { assert (closed (((tr1 ++ items o1 x1) ++ tr2) ++ items o2 x2) c) as K by (apply closed_app; auto).
    apply (i_closed _ _ I2') in K as [K _]. apply K. eapply on_known; eauto. }
  assert (id2 = id) as -> by exact (on_fun _ _ _ _ (i_good _ _ I2') SB2 O3). unfold look in L3. assert (e3 = e2) as -> by congruence.
  destruct (m_wait _ _ (moves_trans _ _ _ M1 M3) W2) as (_ & _ & D3). specialize (D3 _ D1).
  assert (established (o_r x2)) as E2 by (apply (sp_est _ _ _ _ SP2), ES2, E1).
  destruct (sp_wait _ _ _ _ SP2 ID2 E2 e2) as (d2 & D4 & D5); [apply (look_in _ _ _ L2)|exact W2|]. unfold OPEN_TIMEOUT in DL. assert (d2 = d) by congruence. lia.
Qed.
Print Assumptions C50_wait_is_bounded.

(** Meanwhile the Rtc asks to be called again within half a second. *)
Theorem C50_retry_timer : forall A (P : proto A) w now ph os r tr o x, run P (rtc0 w now ph) os = Ok (r, tr) -> step P r o = Ok x ->
  o_idle x = true -> established (o_r x) -> forall c, waiting (o_r x) c ->
  forall own, exists t, poll_timeout (r_s (o_r x)) own = Some t /\ t <= r_now (o_r x) + 500000000.
Proof.
  intros A P w now ph os r tr o x R S ID E c (id & e & SB & L & W) own.
  pose proof (ru_inv _ _ _ _ (run_spec P os _ _ _ _ (inv0 w now ph) R)) as I. cbn [app] in I.
  pose proof (step_spec P _ _ _ _ I S) as SP. pose proof (sp_inv _ _ _ _ SP) as I'. apply look_in in L as [LI _].
  destruct (sp_wait _ _ _ _ SP ID E e LI W) as (d & D1 & D2). unfold poll_timeout.
  assert (existsb (fun e => estate_eqb (e_state e) AwaitOpen && match e_deadline e with Some _ => true | None => false end) (s_entries (r_s (o_r x))) = true) as ->.
  { apply existsb_exists. exists e. split; [exact LI|]. rewrite W, D1. reflexivity. }
  assert (s_now (r_s (o_r x)) = r_now (o_r x)) as -> by (destruct (i_clock _ _ I') as [Y|Y]; [exact Y|exfalso; exact (Y e LI W)]).
  unfold RETRY_INTERVAL. destruct own; eexists; (split; [reflexivity|lia]).
Qed.
Print Assumptions C50_retry_timer.

(** Nothing panics, as long as the SCTP implementation gives out bytes and has the streams it says exist
    ([sane]), and the labels and protocols of channels created in band fit in 1488 bytes (see
    C29_long_label_refuted), except: creating a channel with a negotiated stream id that another
    channel has or wants (documented), and confirming a channel that was not created or is closed (the
    caller, the SDP code, never does). *)
Theorem C50_no_panic : forall A (P : proto A) w now ph os r tr o, sane P -> run P (rtc0 w now ph) os = Ok (r, tr) ->
  (forall cf, In (ICall (ONew cf)) tr -> c_negotiated cf = None -> zlen (c_label cf) + zlen (c_proto cf) <= 1488) ->
  step P r o = Panic ->
  (exists cf i a, o = ONew cf /\ c_negotiated cf = Some i /\ In a (ChanModel.allocs (r_h r)) /\ (ChanModel.a_stream a = Some i \/ ChanModel.a_neg a = Some i)) \/
  (exists c, o = OConfirm c /\ (conf_of (r_confs r) c = None \/ forall a, In a (ChanModel.allocs (r_h r)) -> ChanModel.a_id a <> c)).
Proof.
  intros A P w now ph os r tr o SN R SHORT S.
  pose proof (ru_inv _ _ _ _ (run_spec P os _ _ _ _ (inv0 w now ph) R)) as I. cbn [app] in I.
  pose proof I as [I1 I2 I3 I4 I5 I6 I7 I8 I9 I10 I11].
  destruct o; cbn [step] in S.
  - left. unfold ChanModel.new_channel in S. destruct (c_negotiated c) as [i|] eqn:N; [|discriminate]. destruct (existsb _ _) eqn:X; [|discriminate].
    apply existsb_exists in X as (a & IA & X). exists c, i, a. split; [reflexivity|]. split; [exact N|]. split; [exact IA|].
    apply Bool.orb_true_iff in X. unfold ChanModel.opt_is in X. destruct X as [X|X]; [left; destruct (ChanModel.a_stream a)|right; destruct (ChanModel.a_neg a)]; try discriminate; apply Z.eqb_eq in X; congruence.
  - right. exists id. split; [reflexivity|]. destruct (conf_of (r_confs r) id) as [cf|]; [right|auto].
    destruct (ChanModel.confirm (r_h r) id) as [h| |] eqn:C; try discriminate. intros a IA EA. unfold ChanModel.confirm in C. destruct (existsb _ _) eqn:X; [discriminate|].
    assert (existsb (fun a => ChanModel.a_id a =? id) (ChanModel.allocs (r_h r)) = true) as Y by (apply existsb_exists; exists a; split; [exact IA|apply Z.eqb_eq; exact EA]). congruence.
  - destruct (ChanModel.stream_by_channel _ _); [destruct (close_stream _ _ _)|]; discriminate.
  - destruct (s_st (r_s r)) eqn:ST; try discriminate. unfold init in S. rewrite ST in S. discriminate.
  - discriminate.
  - exfalso. destruct (Z.ltb_spec now0 (r_now r)) as [LT|GE]; [discriminate|].
    set (s := handle_timeout (r_s r) now0 w0) in *. set (inited := match s_st s with Uninited => false | _ => true end) in *.
    destruct (ChanModel.handle_timeout (r_h r) inited (s_client s)) as [h l] eqn:HT.
    destruct (timeout_on _ _ _ _ _ I1 HT) as (_ & _ & _ & _ & T5 & _ & _).
    assert (forall l s0, (forall c id, In (c, id) l -> conf_of (r_confs r) c <> None) -> open_all P s0 (r_confs r) l <> Panic) as OA.
    { clear. induction l as [|[c id] l IH]; intros s0 H; cbn [open_all]; [discriminate|].
      pose proof (H c id (or_introl eq_refl)) as HC. destruct (conf_of (r_confs r) c) as [cf|]; [|congruence].
      assert (open_stream P s0 id cf <> Panic) as OS.
      { unfold open_stream. destruct (entry_by_id (stream_entry (s_entries s0) id AwaitOpen) id) as [e|] eqn:L.
        - destruct (e_conf e); [discriminate|]. destruct (estate_eqb _ _); [|discriminate]. destruct (in_band cf); [discriminate|]. destruct (negb _); [discriminate|]. destruct (negb _); [discriminate|].
          unfold configure. ex. destruct (p_rel P _ _ _ _ _). discriminate.
        - exfalso. unfold stream_entry in L. destruct (entry_by_id (s_entries s0) id) eqn:L0; [congruence|].
          assert (In (mkEntry id None AwaitOpen false None Unconfigured) (insert_entry (s_entries s0) (mkEntry id None AwaitOpen false None Unconfigured))) as IN by (apply ins_in; auto).
          eapply look_none in L; [|exact IN]. apply L. reflexivity. }
      destruct (open_stream P s0 id cf) as [[s1 t]| |]; cbn [bind]; try discriminate; [|contradiction].
      assert (open_all P s1 (r_confs r) l <> Panic) as OL by (apply IH; intros c' id' K; apply (H c' id'); right; exact K).
      destruct (open_all P s1 (r_confs r) l) as [[s2 t2]| |]; cbn [bind]; try discriminate. contradiction. }
    assert (open_all P s (r_confs r) l <> Panic) as OL.
    { apply OA. intros c id K. destruct (T5 c id K) as (_ & a & IA & <- & CA). auto. }
    destruct (open_all P s (r_confs r) l) as [[s1 t]| |]; cbn [bind] in S; try discriminate. contradiction.
  - exfalso. assert (do_poll P fuel (r_s r) <> Panic) as DN.
    { apply (do_poll_noPanic P (r_h r) (r_confs r) (announced tr) SN); [|exact I2]. intros c cf CF IB. apply SHORT.
      - destruct (run_confs P os _ _ _ _ _ R CF) as [X|X]; [discriminate|exact X].
      - unfold in_band in IB. destruct (c_negotiated cf); [discriminate|reflexivity]. }
    destruct (do_poll P fuel (r_s r)) as [[[ev s'] t]| |] eqn:DP; try discriminate; [|contradiction]. cbn [bind] in S.
    destruct (do_poll_spec P (r_h r) (r_confs r) (announced tr) fuel (r_s r) ev s' t I2 I3 DP) as (PO & _ & _).
    destruct ev as [ev|]; [|discriminate]. destruct (translate (with_s r s') blocked ev) as [[r' us]| |] eqn:T; cbn [bind] in S; try discriminate.
    destruct ev; cbn [translate] in T; rx.
    + unfold push_back in T. inversion PO as [E|sv E SV| | |]; try discriminate. injection E as <-. rewrite SV in T. destruct (if blocked then packets else tl packets); discriminate.
    + destruct (ensure_on (r_h r) id I1) as (N1 & _ & _ & _ & _ & (c & O) & _). apply cbs_on in O; [|exact N1]. rewrite O in T. discriminate.
    + destruct (ChanModel.channel_by_stream _ _); discriminate.
    + discriminate.
    + destruct (ChanModel.channel_by_stream _ _); discriminate.
    + destruct (ChanModel.channel_by_stream _ _); discriminate.
    + discriminate.
  - exfalso. destruct (usable r id) eqn:U; cbn [negb] in S; [|discriminate]. unfold usable in U. destruct (ChanModel.stream_by_channel (r_h r) id) as [sid|]; [|discriminate].
    destruct (_ <? _); [discriminate|]. unfold is_open in U. destruct (write P (r_s r) sid binary buf) as [[s t]| |] eqn:W; try discriminate. clear S. unfold write in W.
    destruct (s_st (r_s r)); try discriminate. destruct (_ || _); [discriminate|]. destruct (entry_by_id _ _); [|discriminate].
    destruct (negb _); [discriminate|]. destruct (negb _); [discriminate|]. destruct (p_write P _ _ _ _) as [ok w1]. destruct ok; discriminate.
  - exfalso. destruct (usable r id) eqn:U; cbn [negb] in S; [|discriminate]. unfold usable in U. destruct (ChanModel.stream_by_channel (r_h r) id) as [sid|]; [|discriminate].
    unfold is_open in U. destruct (s_st (r_s r)); try discriminate. unfold set_threshold in S. destruct (entry_by_id _ _); discriminate.
Qed.
Print Assumptions C50_no_panic.

(** A poll returns if the association's queue of events is finite ([finite]: each event taken shortens
    it, a fruitless attempt to transmit does not lengthen it; everything else may). *)
Theorem C50_poll_returns : forall A (P : proto A) m, finite P m -> forall w now ph os r tr, run P (rtc0 w now ph) os = Ok (r, tr) ->
  exists n, forall fuel blocked, (n <= fuel)%nat -> step P r (OPoll fuel blocked) <> Err.
Proof.
  intros A P m FI w now ph os r tr R.
  pose proof (ru_inv _ _ _ _ (run_spec P os _ _ _ _ (inv0 w now ph) R)) as I. cbn [app] in I.
  destruct (do_poll_total P m FI (r_h r) (r_confs r) (announced tr) _ _ (r_s r) (le_n _) (le_n _) (i_base _ _ I)) as (F & HF).
  exists F. intros fuel blocked L. specialize (HF fuel L). cbn [step]. destruct (do_poll P fuel (r_s r)) as [[[ev s'] t]| |]; cbn [bind]; try discriminate; [|contradiction].
  destruct ev as [ev|]; [|discriminate]. destruct (translate (with_s r s') blocked ev) as [[r' us]| |] eqn:T; cbn [bind]; try discriminate.
  exfalso. destruct ev; cbn [translate] in T; rx; try discriminate; try (destruct (ChanModel.channel_by_stream _ _); discriminate).
  unfold push_back in T. destruct (if blocked then packets else tl packets); cbn [bind] in T; [discriminate|]. destruct (s_pushed s'); discriminate.
Qed.
Print Assumptions C50_poll_returns.

(** ** Concrete cases *)
Lemma toy_sane_case : sane (A := toy) {| p_transmit := p_transmit toyP; p_poll := p_poll toyP; p_open := p_open toyP; p_stream := p_stream toyP; p_live := p_live toyP;
  p_rel := p_rel toyP; p_write := p_write toyP; p_read := fun w _ => (RdNone, w); p_thr := p_thr toyP; p_buffered := p_buffered toyP; p_close := p_close toyP; p_down := p_down toyP |}.
Proof.
  split; cbn; [|discriminate]. intros w id w'. destruct (mem (y_streams w) id) eqn:M; [|discriminate]. intro H. injection H as <-. exact M.
Qed.
Lemma toy_finite : finite toyP (fun w => length (y_evs w)).
Proof.
  split; cbn.
  - intros w ev w' H. destruct (y_evs w) as [|e r]; [discriminate|]. injection H as <- <-. cbn. auto.
  - intros w now w' H. injection H as <-. auto.
Qed.
(** The stream with the channel's number is in use: the channel waits, and is closed after 10 seconds. *)
Definition busy : toy := mkToy [] [] [0].
Definition wait1 : list (@op toy) := [ONew cf_in; OConfirm 0; OInit true true busy; OTimeout 1 busy].
Example C50_wait_case : exists r1 tr1 x1 r2 tr2 x2,
  run toyP (rtc0 toy0 0 0) wait1 = Ok (r1, tr1) /\ step toyP r1 poll = Ok x1 /\ o_idle x1 = true /\ established (o_r x1) /\ waiting (o_r x1) 0 /\
  run toyP (o_r x1) [OTimeout 10000000001 busy; poll] = Ok (r2, tr2) /\ step toyP r2 poll = Ok x2 /\ o_idle x2 = true /\
  r_now (o_r x2) >= r_now (o_r x1) + 10000000000 /\ In (IEv (UClosed 0)) tr2.
Proof.
  do 6 eexists. split; [vm_compute; reflexivity|]. split; [vm_compute; reflexivity|]. split; [reflexivity|]. split; [reflexivity|].
  split; [do 2 eexists; split; [reflexivity|split; [reflexivity|reflexivity]]|]. split; [vm_compute; reflexivity|]. split; [vm_compute; reflexivity|]. split; [reflexivity|].
  split; [vm_compute; discriminate|]. cbn. tauto.
Qed.
(** What was read, written and delivered in the life of C48_life. *)
Example C49_life : exists r tr, run toyP (rtc0 toy0 0 0) life = Ok (r, tr) /\
  flat_map (fun i => match i with IAct a => [inl a] | IEv u => [inr u] | _ => [] end) tr =
  [inl (AOpened 0); inl (ARel 0 false TReliable 0); inl (AWrite 0 PDcep [3; 0; 0; 0; 0; 0; 0; 0; 0; 2; 0; 0; 104; 105]);
   inl (ARead 0 PDcep [2]); inr (UOpen 0 [104; 105]); inl (ARead 0 PString [65; 66]); inr (UData 0 false [65; 66]);
   inl (AWrite 0 PBinary [1; 2; 3]); inl (AClose 0); inr (UClosed 0)].
Proof. do 2 eexists. split; [vm_compute; reflexivity|]. vm_compute. reflexivity. Qed.

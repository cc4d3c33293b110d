(** Lemmas about one SCTP poll, continued (C48). *)
From Coq Require Import Sorting.Sorted.
From Verif Require Import Base BaseFacts DcepModel SctpModel SctpProofs SctpProofs2.
From Verif Require ChanModel ChanProps.

Section P.
Context {A : Type} (P : proto A).
Section Inv.
Context (h : ChanModel.handler) (confs : list (Z * config)) (op : Z -> Prop).
Notation eok := (eok h confs op).
Notation visited := (visited h confs op).
Notation base := (base h confs op).
Notation tq := (tq h confs).

Ltac sx := cbn [s_st s_world s_assoc s_entries s_rpend s_rcomp s_pushed s_now s_client s_set_st s_set_world s_set_entries s_set_resets s_set_pushed s_set_now] in *.

Record frame (s s' : sctp A) : Prop := {
  f_now : s_now s' = s_now s; f_client : s_client s' = s_client s; f_assoc : s_assoc s' = s_assoc s;
  f_st : s_st s' = s_st s \/ (s_st s' = Established /\ s_assoc s = true /\ s_st s <> Uninited)
}.
Lemma frame_refl s : frame s s.
Proof. split; auto. Qed.
Lemma frame_trans a b c : frame a b -> frame b c -> frame a c.
Proof.
  intros [A1 A2 A3 A4] [B1 B2 B3 B4]. split; try congruence. destruct A4 as [A4|(A4 & A5 & A6)], B4 as [B4|(B4 & B5 & B6)].
  - left. congruence.
  - right. rewrite <- A3, <- A4. auto.
  - right. split; [congruence|auto].
  - right. auto.
Qed.

Definition dls (now : Z) (es : list entry) : Prop := forall e, In e es -> dl_ok now e.
Lemma dls_upd now es id f : (forall e, e_deadline (f e) = e_deadline e) -> (forall e, e_state (f e) = e_state e) -> dls now es -> dls now (upd_entry es id f).
Proof. intros F F' D x I. apply in_upd in I as [I|(e & I & _ & ->)]; [auto|]. intros W d E. rewrite F in E. rewrite F' in W. eapply D; eauto. Qed.
Lemma dls_stream_entry now es id st : dls now es -> dls now (stream_entry es id st).
Proof.
  intros D e I. unfold stream_entry in I. destruct (entry_by_id es id); [auto|]. apply ins_in in I as [->|I]; [|auto]. intros _ d E. discriminate E.
Qed.
Lemma dls_live now es : dls now es -> dls now (live es).
Proof. intros D e I. apply live_in in I as [I _]. auto. Qed.

Record drained (s s' : sctp A) (o : out) : Prop := {
  d_ev : evolves (s_entries s) (s_entries s'); d_base : base (s_entries s'); d_nodead : nodead (s_entries s');
  d_dl : forall now, dls now (s_entries s) -> dls now (s_entries s');
  d_now : s_now s' = s_now s; d_client : s_client s' = s_client s; d_assoc : s_assoc s' = s_assoc s; d_pushed : s_pushed s' = s_pushed s;
  d_out : match o with Cont => s_st s' = s_st s | Restart => s_st s' = Established
          | Emit SLost => s_st s' = s_st s | Emit (SLow _) => s_st s' = s_st s | _ => False end
}.

Lemma drain_spec : forall fuel s s' o, base (s_entries s) -> nodead (s_entries s) -> drain P fuel s = Ok (s', o) -> drained s s' o.
Proof.
  induction fuel as [|f IH]; intros s s' o B N H; cbn [drain] in H; [discriminate|].
  destruct (p_poll P (s_world s)) as [[ev w]|].
  2:{ injection H as <- <-. split; auto using evolves_refl. }
  destruct ev as [| |id|id|id|id|].
  - injection H as <- <-. split; sx; auto using evolves_refl.
  - injection H as <- <-. split; sx; auto using evolves_refl.
  - pose proof (fun a b => IH _ _ _ a b H) as IH'. sx. destruct (IH' (base_stream_entry _ _ _ _ id B) (nodead_stream_entry _ id N)) as [D1 D2 D3 D4 D5 D6 D7 D8 D9]. sx.
    split; auto.
    + eapply evolves_trans; [apply (evolves_stream_entry (s_entries s) id (proj1 B))|exact D1].
    + intros now D. apply D4, dls_stream_entry, D.
  - set (f' := fun e => if negb (estate_eqb (e_state e) EClosed) && negb (estate_eqb (e_state e) AwaitOpen) then e_set_close e else e) in *.
    assert (forall e, e_id (f' e) = e_id e) as F1 by (intro e; unfold f'; destruct (_ && _); reflexivity).
    assert (forall e, e_state (f' e) = e_state e) as F2 by (intro e; unfold f'; destruct (_ && _); reflexivity).
    assert (forall e, e_deadline (f' e) = e_deadline e) as F3 by (intro e; unfold f'; destruct (_ && _); reflexivity).
    pose proof (fun a b => IH _ _ _ a b H) as IH'. sx. destruct (IH' (base_upd h confs op (s_entries s) id f' F1 ltac:(intros e E; unfold f'; destruct (_ && _); [apply eok_close, E|exact E]) B)
      (nodead_upd (s_entries s) id f' ltac:(intros e; rewrite F2; auto) N)) as [D1 D2 D3 D4 D5 D6 D7 D8 D9]. sx.
    split; auto.
    + eapply evolves_trans; [apply (evolves_upd (s_entries s) id f' F1)|exact D1]. intros e _. unfold f'. destruct (_ && _); [apply moves_close|apply moves_refl].
    + intros now D. apply D4, dls_upd; [exact F3|exact F2|exact D].
  - pose proof (fun a b => IH _ _ _ a b H) as IH'. sx. destruct (IH' B N) as [D1 D2 D3 D4 D5 D6 D7 D8 D9]. sx. split; auto.
  - injection H as <- <-. split; sx; auto using evolves_refl.
  - pose proof (fun a b => IH _ _ _ a b H) as IH'. sx. destruct (IH' B N) as [D1 D2 D3 D4 D5 D6 D7 D8 D9]. sx. split; auto.
Qed.

(** What a poll has done when it returns. *)
Inductive polled (s : sctp A) (ev : option sevent) (s' : sctp A) (t : list act) : Prop :=
| PoNone : ev = None -> evolves (s_entries s) (s_entries s') -> base (s_entries s') -> tq t ->
    (s_st s' = Established -> s_assoc s = true -> (forall e, In e (s_entries s) -> e_state e = EOpen -> e_close e = false) /\
       (forall e, In e (s_entries s') -> e_state e = AwaitOpen -> exists d, e_deadline e = Some d /\ s_now s < d)) -> polled s ev s' t
| PoQuiet sv : ev = Some sv -> match sv with STransmit _ => s_pushed s' = None | SResetComplete _ | SLow _ | SLost => True | _ => False end ->
    evolves (s_entries s) (s_entries s') -> base (s_entries s') -> tq t -> polled s ev s' t
| PoData id b d e p buf t1 : ev = Some (SData id b d) -> evolves (s_entries s) (s_entries s') -> base (s_entries s') ->
    entry_by_id (s_entries s') id = Some e -> e_close e = false -> t = t1 ++ [ARead id p buf] -> tq t1 -> is_data p = true ->
    b = is_binary p -> d = adjust p buf -> polled s ev s' t
| PoClose id pend es1 e e' : ev = Some (SClose id pend) -> evolves (s_entries s) es1 -> base es1 -> entry_by_id es1 id = Some e -> e_state e <> EClosed ->
    e_id e' = id -> e_state e' = EClosed -> s_entries s' = upd_entry es1 id (fun _ => e') -> tq t -> polled s ev s' t
| PoOpen id label es1 e e' t1 t2 : ev = Some (SOpen id label) -> evolves (s_entries s) es1 -> base es1 -> entry_by_id es1 id = Some e ->
    e_id e' = id -> e_state e' = EOpen -> e_conf e' <> None -> (e_close e = true -> e_close e' = true) -> how_open e label t2 ->
    s_entries s' = upd_entry es1 id (fun _ => e') -> t = t1 ++ t2 -> tq t1 -> tq t2 -> s_st s' = Established -> s_assoc s = true -> polled s ev s' t.

Lemma polled_pre s s1 ev s' t0 t : evolves (s_entries s) (s_entries s1) -> s_assoc s1 = s_assoc s -> s_now s1 = s_now s -> base (s_entries s1) ->
  tq t0 -> sorted (s_entries s) -> polled s1 ev s' t -> polled s ev s' (t0 ++ t).
Proof.
  intros E AS NW B T S H. destruct H.
  - apply PoNone; auto; [eapply evolves_trans; eauto|apply tq_app; auto|]. intros X Y. rewrite <- AS in Y. destruct (H3 X Y) as [H4 H5]. split.
    + intros e I W. destruct (ev_fwd _ _ E (e_id e) e) as (e1 & L1 & M1); [apply look_of; auto|congruence|]. apply look_in in L1 as [L1 _].
      destruct (e_close e) eqn:C; [|reflexivity]. rewrite <- (H4 e1 L1 (m_open _ _ M1 W)). symmetry. apply (m_close _ _ M1 C).
    + rewrite <- NW. exact H5.
  - eapply PoQuiet; eauto; [eapply evolves_trans; eauto|apply tq_app; auto].
  - eapply PoData with (t1 := t0 ++ t1); eauto; [eapply evolves_trans; eauto|rewrite H4, app_assoc; reflexivity|apply tq_app; auto].
  - eapply PoClose with (es1 := es1) (e := e) (e' := e'); eauto; [eapply evolves_trans; eauto|apply tq_app; auto].
  - eapply PoOpen with (es1 := es1) (e := e) (e' := e') (t1 := t0 ++ t1) (t2 := t2); eauto; try (eapply evolves_trans; eauto; fail); try (apply tq_app; auto; fail); try congruence. rewrite H9, app_assoc. reflexivity.
Qed.

Lemma do_poll_spec : forall fuel s ev s' t, base (s_entries s) -> dls (s_now s) (s_entries s) -> do_poll P fuel s = Ok (ev, s', t) ->
  polled s ev s' t /\ frame s s' /\ dls (s_now s') (s_entries s').
Proof.
  induction fuel as [|f IH]; intros s ev s' t B DL H; [discriminate|]. cbn [do_poll] in H.
  assert (s_st s = Uninited \/ s_st s <> Uninited) as [U|U] by (destruct (s_st s); [left|right..]; congruence).
  { rewrite U in H. injection H as <- <- <-. split; [|split; [apply frame_refl|exact DL]]. apply PoNone; auto using evolves_refl, tq_nil. congruence. }
  assert (match s_pushed (retain s) with
          | Some t0 => Ok (Some (STransmit t0), s_set_pushed (retain s) None, [])
          | None =>
              let (tr, w) := p_transmit P (s_world (retain s)) (s_now (retain s)) in
              match tr with
              | Some packets => Ok (Some (STransmit packets), s_set_world (retain s) w, [])
              | None =>
                  if match s_st (s_set_world (retain s) w) with AwaitEstablished | Established => false | _ => true end then Ok (None, s_set_world (retain s) w, [])
                  else if negb (s_assoc (s_set_world (retain s) w)) then Ok (None, s_set_world (retain s) w, [])
                  else
                    do (s3, o) <- drain P f (s_set_world (retain s) w) ;
                    match o with
                    | Emit ev => Ok (Some ev, s3, [])
                    | Restart => do_poll P f s3
                    | Cont =>
                        match s_st s3 with
                        | Established =>
                            do l <- scan P (s_now s3) (s_world s3) (s_rpend s3) (s_entries s3) ;
                            let s4 := s_set_resets (s_set_world (s_set_entries s3 (l_es l)) (l_w l)) (l_rp l) (s_rcomp s3) in
                            match l_out l with
                            | Emit ev => Ok (Some ev, s4, l_acts l)
                            | Restart => do (ev, s5, t) <- do_poll P f s4 ; Ok (ev, s5, l_acts l ++ t)
                            | Cont =>
                                match s_rcomp s4 with
                                | id :: r => Ok (Some (SResetComplete id), s_set_resets s4 (s_rpend s4) r, l_acts l)
                                | [] => Ok (None, s4, l_acts l)
                                end
                            end
                        | _ => Ok (None, s3, [])
                        end
                    end
              end
          end = Ok (ev, s', t)) as H'.
  { destruct (s_st s); [congruence|exact H..]. }
  clear H. rename H' into H.
  assert (evolves (s_entries s) (s_entries (retain s))) as E1 by (apply evolves_live, (proj1 B)).
  destruct (base_live _ _ _ _ B) as [B1 N1]. change (live (s_entries s)) with (s_entries (retain s)) in B1, N1.
  assert (dls (s_now s) (s_entries (retain s))) as DL1 by (apply dls_live, DL).
  destruct (s_pushed (retain s)) as [t0|] eqn:PU.
  { injection H as <- <- <-. split; [|split; [split; auto|exact DL1]]. eapply PoQuiet; eauto using tq_nil. reflexivity. }
  destruct (p_transmit P (s_world (retain s)) (s_now (retain s))) as [tr w]. destruct tr as [pk|].
  { injection H as <- <- <-. split; [|split; [split; auto|exact DL1]]. eapply PoQuiet; eauto using tq_nil. }
  destruct (match s_st (s_set_world (retain s) w) with AwaitEstablished | Established => false | _ => true end) eqn:ST.
  { injection H as <- <- <-. split; [|split; [split; auto|exact DL1]]. eapply PoNone; eauto using tq_nil. intro X. rewrite X in ST. discriminate. }
  destruct (s_assoc (s_set_world (retain s) w)) eqn:AS; cbn [negb] in H.
  2:{ injection H as <- <- <-. split; [|split; [split; auto|exact DL1]]. eapply PoNone; eauto using tq_nil. intros X Y.
      change (s_assoc (s_set_world (retain s) w)) with (s_assoc s) in AS. congruence. }
  change (s_assoc (s_set_world (retain s) w)) with (s_assoc s) in AS.
  change (s_st (s_set_world (retain s) w)) with (s_st s) in ST.
  destruct (drain P f (s_set_world (retain s) w)) as [[s3 o]| |] eqn:DR; try discriminate. cbn [bind] in H.
  destruct (drain_spec f (s_set_world (retain s) w) s3 o B1 N1 DR) as [D1 D2 D3 D4 D5 D6 D7 D8 D9].
  change (s_entries (s_set_world (retain s) w)) with (s_entries (retain s)) in *.
  change (s_assoc (s_set_world (retain s) w)) with (s_assoc s) in *. change (s_now (s_set_world (retain s) w)) with (s_now s) in *.
  change (s_st (s_set_world (retain s) w)) with (s_st s) in *. change (s_client (s_set_world (retain s) w)) with (s_client s) in *.
  assert (evolves (s_entries s) (s_entries s3)) as E3 by (eapply evolves_trans; eauto).
  assert (dls (s_now s3) (s_entries s3)) as DL3 by (rewrite D5; apply D4, DL1).
  destruct o as [| |sv].
  - assert (frame s s3) as FR by (split; auto).
    destruct (s_st s3) eqn:S3.
    1-3: injection H as <- <- <-; split; [eapply PoNone; eauto using tq_nil; congruence|split; [exact FR|exact DL3]].
    destruct (scan P (s_now s3) (s_world s3) (s_rpend s3) (s_entries s3)) as [l| |] eqn:SC; try discriminate. cbn [bind] in H.
    pose proof (scan_spec P h confs op _ _ _ _ _ D2 D3 SC) as SP.
    pose proof (scan_dl P h confs op _ _ _ _ _ D2 D3 SC DL3) as DL4.
    set (s4 := s_set_resets (s_set_world (s_set_entries s3 (l_es l)) (l_w l)) (l_rp l) (s_rcomp s3)) in *.
    assert (frame s s4) as FR4 by (destruct FR; split; auto).
    assert (dls (s_now s4) (s_entries s4)) as DL4' by exact DL4.
    destruct SP as [LO EV BB ND T CL DD|LO EV BB ND T|ev0 es1 e v t1 LO EV BB ND LK LE LA T V1 V2].
    + rewrite LO in H.
      assert (evolves (s_entries s) (s_entries s4)) as E4 by (eapply evolves_trans; eauto).
      destruct (s_rcomp s4) as [|id r].
      * injection H as <- <- <-. split; [|split; [exact FR4|exact DL4']]. apply PoNone; auto. intros _ _. split.
        -- intros e I W. destruct (ev_fwd _ _ E3 (e_id e) e) as (e1 & L1 & M1); [apply look_of; [apply B|exact I]|congruence|]. apply look_in in L1 as [L1 _].
           destruct (e_close e) eqn:C; [|reflexivity]. pose proof (CL e1 L1 (m_close _ _ M1 C)) as X. rewrite (m_open _ _ M1 W) in X. discriminate.
        -- rewrite <- D5. exact DD.
      * injection H as <- <- <-. split; [|split; [destruct FR4; split; auto|exact DL4']]. apply (PoQuiet _ _ _ _ (SResetComplete id)); [reflexivity|exact I|exact E4|exact BB|exact T].
    + rewrite LO in H. destruct (do_poll P f s4) as [[[ev1 s5] t1]| |] eqn:DP; try discriminate. cbn [bind] in H. injection H as <- <- <-.
      destruct (IH s4 _ _ _ BB DL4' DP) as (PO & F5 & DL5). split; [|split; [eapply frame_trans; eauto|exact DL5]].
      eapply polled_pre; [| | | | | |exact PO]; [eapply evolves_trans; eauto|apply (f_assoc _ _ FR4)|apply (f_now _ _ FR4)|exact BB|exact T|apply B].
    + rewrite LO in H. injection H as <- <- <-. split; [|split; [exact FR4|exact DL4']].
      assert (evolves (s_entries s) es1) as E4 by (eapply evolves_trans; eauto).
      pose proof V1 as V1'. unfold SctpProofs.visited in V1. rewrite V2 in V1. destruct ev0; try tauto.
      * destruct V1 as (-> & I1 & W1 & C1 & M1 & HO & Q). eapply PoOpen with (t1 := t1) (t2 := v_acts v); eauto; try congruence.
        eapply tq_of; [|exact Q]. apply BB. apply look_in in LK as [LK _]. exact LK.
      * destruct V1 as (-> & I1 & W1 & N1' & Q). eapply PoClose; eauto. rewrite LA. apply tq_app; [exact T|].
        eapply tq_of; [|exact Q]. apply BB. apply look_in in LK as [LK _]. exact LK.
      * destruct V1 as (-> & C1 & C2 & W1 & W2 & M1 & O1 & p & buf & PD & VA & Eb & Ed).
        pose proof (m_id _ _ M1) as IV.
        assert (forall x, In x es1 -> e_id x = e_id e -> x = e) as UQ.
        { intros x Hx Ex. pose proof (look_of es1 x (proj1 BB) Hx) as L. rewrite Ex, LK in L. congruence. }
        assert (upd_entry es1 (e_id e) (fun _ => v_e v) = upd_entry es1 (e_id e) (fun y => if e_id y =? e_id e then v_e v else y)) as EQ.
        { clear - es1. induction es1 as [|y r IHr]; [reflexivity|]. cbn [upd_entry]. destruct (e_id y =? e_id e) eqn:Y; [reflexivity|]. rewrite IHr. reflexivity. }
        assert (forall y, e_id (if e_id y =? e_id e then v_e v else y) = e_id y) as FI by (intro y; destruct (Z.eqb_spec (e_id y) (e_id e)); congruence).
        assert (s_entries s4 = upd_entry es1 (e_id e) (fun y => if e_id y =? e_id e then v_e v else y)) as LE' by (rewrite <- EQ; exact LE).
        eapply PoData with (e := v_e v) (t1 := t1); eauto.
        -- eapply evolves_trans; [exact E4|]. rewrite LE'. apply evolves_upd; [exact FI|]. intros y Ly. apply look_in in Ly as [Iy Ey].
           rewrite (UQ y Iy Ey). rewrite Z.eqb_refl. exact M1.
        -- split; [rewrite LE'; apply upd_sorted; [exact FI|apply BB]|]. intros x I. rewrite LE' in I. apply in_upd in I as [I|(y & I & Ey & ->)]; [apply BB, I|].
           rewrite Ey, Z.eqb_refl. exact O1.
        -- rewrite LE'. rewrite look_upd by exact FI. rewrite Z.eqb_refl, LK. cbn. rewrite Z.eqb_refl. reflexivity.
        -- rewrite LA, VA. reflexivity.
  - cbn in D9. assert (frame s s3) as FR by (split; auto; right; repeat split; auto).
    destruct (IH _ _ _ _ D2 DL3 H) as (PO & F5 & DL5). split; [|split; [eapply frame_trans; eauto|exact DL5]].
    change t with ([] ++ t). eapply polled_pre; [exact E3|exact D7|exact D5|exact D2|apply tq_nil|apply B|exact PO].
  - injection H as <- <- <-. assert (frame s s3) as FR by (destruct sv; try tauto; split; auto).
    split; [|split; [exact FR|exact DL3]]. eapply PoQuiet; eauto using tq_nil. destruct sv; tauto.
Qed.
End Inv.
End P.

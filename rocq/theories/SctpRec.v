(** The stream operations in the histories of SctpModel are the calls really made: the same SCTP with a
    recorder in front records the same list. *)
From Verif Require Import Base BaseFacts DcepModel SctpModel SctpSpec SctpProps.
From Verif Require ChanModel.

Definition rec {A} (P : proto A) : proto (A * list act) := {|
  p_transmit := fun x n => let (t, w) := p_transmit P (fst x) n in (t, (w, snd x));
  p_poll := fun x => match p_poll P (fst x) with None => None | Some (e, w) => Some (e, (w, snd x)) end;
  p_open := fun x id => let (o, w) := p_open P (fst x) id in (o, (w, snd x ++ match o with RNew => [AOpened id] | _ => [] end));
  p_stream := fun x id => p_stream P (fst x) id;
  p_live := fun x id => p_live P (fst x) id;
  p_rel := fun x id u t v => let (ok, w) := p_rel P (fst x) id u t v in (ok, (w, snd x ++ [ARel id u t v]));
  p_write := fun x id p b => let (ok, w) := p_write P (fst x) id p b in (ok, (w, snd x ++ if ok then [AWrite id p b] else []));
  p_read := fun x id => let (m, w) := p_read P (fst x) id in (m, (w, snd x ++ match m with RdMsg p b => [ARead id p b] | _ => [] end));
  p_thr := fun x id v => let (ok, w) := p_thr P (fst x) id v in (ok, (w, snd x));
  p_buffered := fun x id => p_buffered P (fst x) id;
  p_close := fun x id => let (ok, w) := p_close P (fst x) id in (ok, (w, snd x ++ [AClose id]));
  p_down := fun x => p_down P (fst x) |}.

Section Rec.
Context {A : Type} (P : proto A).
Notation R := (rec P).
Notation WA := (A * list act)%type.
Implicit Types (w : WA) (s : sctp WA).

Lemma propagate_rec b w rp id pe w' rp' t : propagate_close R b w rp id = (pe, w', rp', t) -> snd w' = snd w ++ t.
Proof.
  unfold propagate_close. destruct (b && _); [|intro H; injection H as <- <- <- <-; rewrite app_nil_r; reflexivity].
  cbn [rec p_close]. destruct (p_close P (fst w) id) as [[|] w1]; intro H; injection H as <- <- <- <-; reflexivity.
Qed.
Lemma configure_rec w e ok w' e' t : configure R w e = Ok (ok, w', e', t) -> snd w' = snd w ++ t.
Proof.
  unfold configure. destruct (e_conf e); [|discriminate]. cbn [rec p_rel]. destruct (p_rel P _ _ _ _ _) as [k w1]. intro H. injection H as <- <- <- <-. reflexivity.
Qed.
Lemma shut_rec w rp e t w0 : snd w = snd w0 ++ t -> snd (v_w (shut R w rp e t)) = snd w0 ++ v_acts (shut R w rp e t).
Proof.
  intro E. unfold shut. destruct (propagate_close R true w rp (e_id e)) as [[[pe w'] rp'] t'] eqn:H. apply propagate_rec in H. cbn. rewrite H, E, app_assoc. reflexivity.
Qed.
Lemma oob_rec w rp e t v : opened_out_of_band w rp e t = Ok v -> v_w v = w /\ v_acts v = t.
Proof. unfold opened_out_of_band. destruct (e_conf e); [|discriminate]. destruct (in_band c); [discriminate|]. intro H. injection H as <-. auto. Qed.
Lemma open_rec now w rp e v : visit_open R now w rp e = Ok v -> snd (v_w v) = snd w ++ v_acts v.
Proof.
  unfold visit_open. cbn [rec p_open]. destruct (p_open P (fst w) (e_id e)) as [o w0] eqn:PO.
  assert (forall r, o = r -> r <> RNew -> r <> RFail -> match e_conf e with
      | None => Panic
      | Some c =>
          let pending := match r with RResetPending => true | _ => false end in
          let stale := negb pending && (p_stream R (w0, snd w ++ []) (e_id e) && negb (p_live R (w0, snd w ++ []) (e_id e))) in
          if in_band c || stale || pending then
            let deadline := match e_deadline e with Some d => d | None => now + OPEN_TIMEOUT end in
            let e1 := e_set_deadline e (Some deadline) in
            if now <? deadline then Ok (mkV e1 (w0, snd w ++ []) rp Cont [])
            else Ok (shut R (w0, snd w ++ []) rp (e_set_close e1) [])
          else if negb (p_stream R (w0, snd w ++ []) (e_id e)) then Panic
          else
            do (ok, w1, e1, t) <- configure R (w0, snd w ++ []) e ;
            if negb ok then Ok (shut R w1 rp e1 t)
            else opened_out_of_band w1 rp e1 t
      end = Ok v -> snd (v_w v) = snd w ++ v_acts v) as X.
  { intros r _ _ _ H. destruct (e_conf e) as [c|]; [|discriminate]. cbv zeta in H. destruct (_ || _).
    - destruct (now <? _); injection H as <-; [cbn; rewrite app_nil_r; reflexivity|]. apply shut_rec. cbn. reflexivity.
    - destruct (negb (p_stream _ _ _)); [discriminate|]. destruct (configure R _ e) as [[[[ok w1] e1] t]| |] eqn:CF; try discriminate. cbn [bind] in H. apply configure_rec in CF. cbn [snd] in CF. rewrite app_nil_r in CF.
      destruct (negb ok); [injection H as <-; apply shut_rec; exact CF|]. apply oob_rec in H as [-> ->]. exact CF. }
  destruct o.
  - intro H. destruct (configure R _ (e_set_deadline e None)) as [[[[ok w1] e1] t]| |] eqn:CF; try discriminate. cbn [bind] in H. apply configure_rec in CF. cbn [snd] in CF. rewrite <- app_assoc in CF. cbn [app] in CF.
    destruct (negb ok); [injection H as <-; apply shut_rec; exact CF|]. destruct (e_conf e1) as [c|]; [|discriminate]. destruct (in_band c).
    + destruct (send_open c) as [buf| |]; try discriminate. cbn [bind rec p_write] in H. destruct (p_write P (fst w1) _ _ _) as [[|] w2]; injection H as <-.
      * cbn. rewrite CF, <- app_assoc. reflexivity.
      * apply shut_rec. cbn. rewrite app_nil_r. exact CF.
    + apply oob_rec in H as [-> ->]. exact CF.
  - exact (X RExists eq_refl ltac:(discriminate) ltac:(discriminate)).
  - exact (X RResetPending eq_refl ltac:(discriminate) ltac:(discriminate)).
  - intro H. injection H as <-. apply shut_rec. cbn. rewrite app_nil_r. reflexivity.
Qed.
Lemma dcep_rec w rp e buf t v w0 : snd w = snd w0 ++ t -> visit_dcep R w rp e buf t = Ok v -> snd (v_w v) = snd w0 ++ v_acts v.
Proof.
  intros E H. unfold visit_dcep in H. destruct (e_state e); try (injection H as <-; exact E).
  - destruct (open_read buf) as [d| |]; try discriminate; [|injection H as <-; exact E].
    destruct (configure R w _) as [[[[ok w1] e1] t1]| |] eqn:CF; try discriminate. cbn [bind] in H. apply configure_rec in CF. rewrite E, <- app_assoc in CF.
    destruct (negb ok); [injection H as <-; exact CF|]. destruct (ack_write 1) as [ack| |]; try discriminate. cbn [bind rec p_write] in H.
    destruct (p_write P (fst w1) _ _ _) as [[|] w2]; injection H as <-.
    + cbn. rewrite CF, <- !app_assoc. reflexivity.
    + apply shut_rec. cbn. rewrite app_nil_r. exact CF.
  - destruct (ack_read buf); try discriminate; [|injection H as <-; exact E]. destruct (e_conf e); [|discriminate]. injection H as <-. exact E.
Qed.
Lemma read_rec w rp e v : visit_read R w rp e = Ok v -> snd (v_w v) = snd w ++ v_acts v.
Proof.
  unfold visit_read. cbn [rec p_read]. destruct (p_read P (fst w) (e_id e)) as [[| |p buf] w1]; try (intro H; injection H as <-; cbn; reflexivity).
  destruct p; try (intro H; injection H as <-; cbn; reflexivity). apply dcep_rec. reflexivity.
Qed.
Lemma visit_rec now w rp e v : visit R now w rp e = Ok v -> snd (v_w v) = snd w ++ v_acts v.
Proof.
  unfold visit. destruct (estate_eqb _ _); [apply open_rec|]. destruct (_ && _). { intro H. injection H as <-. apply shut_rec. rewrite app_nil_r. reflexivity. }
  destruct (negb _); [intro H; injection H as <-; cbn; rewrite app_nil_r; reflexivity|]. destruct (e_thr e); try apply read_rec.
  cbn [rec p_thr]. destruct (p_thr P (fst w) _ _) as [[|] w1]; [|intro H; injection H as <-; cbn; rewrite app_nil_r; reflexivity]. intro H. apply read_rec in H. exact H.
Qed.
Lemma scan_rec : forall es now w rp l, scan R now w rp es = Ok l -> snd (l_w l) = snd w ++ l_acts l.
Proof.
  induction es as [|e es IH]; intros now w rp l H; cbn [scan] in H; [injection H as <-; cbn; rewrite app_nil_r; reflexivity|].
  destruct (visit R now w rp e) as [v| |] eqn:V; try discriminate. cbn [bind] in H. apply visit_rec in V. destruct (v_out v).
  - destruct (scan R now (v_w v) (v_rp v) es) as [l1| |] eqn:L; try discriminate. cbn [bind] in H. injection H as <-. apply IH in L. cbn. rewrite L, V, app_assoc. reflexivity.
  - injection H as <-. exact V.
  - injection H as <-. exact V.
Qed.
Lemma drain_rec : forall f s s' o, drain R f s = Ok (s', o) -> snd (s_world s') = snd (s_world s).
Proof.
  induction f as [|f IH]; intros s s' o H; cbn [drain] in H; [discriminate|]. cbn [rec p_poll] in H. destruct (p_poll P (fst (s_world s))) as [[ev w]|]; [|injection H as <- <-; reflexivity].
  destruct ev; try (apply IH in H; exact H); injection H as <- <-; reflexivity.
Qed.
Lemma do_poll_rec : forall f s ev s' t, do_poll R f s = Ok (ev, s', t) -> snd (s_world s') = snd (s_world s) ++ t.
Proof.
  induction f as [|f IH]; intros s ev s' t H; cbn [do_poll] in H; [discriminate|].
  destruct (s_st s) eqn:ST; [injection H as <- <- <-; rewrite app_nil_r; reflexivity|..].
  all: cbv zeta in H; destruct (s_pushed (retain s)) as [pk|]; [injection H as <- <- <-; cbn; rewrite app_nil_r; reflexivity|].
  all: cbn [rec p_transmit] in H; destruct (p_transmit P (fst (s_world (retain s))) (s_now (retain s))) as [tr w]; cbv beta iota in H.
  all: destruct tr as [pk|]; [injection H as <- <- <-; cbn; rewrite app_nil_r; reflexivity|].
  all: match type of H with (if ?b then _ else _) = _ => destruct b; [injection H as <- <- <-; cbn; rewrite app_nil_r; reflexivity|] end.
  all: match type of H with (if ?b then _ else _) = _ => destruct b; [injection H as <- <- <-; cbn; rewrite app_nil_r; reflexivity|] end.
  all: match type of H with (bind ?x _) = _ => destruct x as [[s3 o]| |] eqn:D; try discriminate; cbn [bind] in H end.
  all: apply drain_rec in D; cbn [s_set_world s_world snd] in D; change (snd (s_world (retain s))) with (snd (s_world s)) in D; rewrite <- D.
  all: destruct o; [|apply IH in H; exact H|injection H as <- <- <-; rewrite app_nil_r; reflexivity].
  all: destruct (s_st s3); try (injection H as <- <- <-; rewrite app_nil_r; reflexivity).
  all: match type of H with (bind ?x _) = _ => destruct x as [l| |] eqn:L; try discriminate; cbn [bind] in H end; apply scan_rec in L.
  all: destruct (l_out l); [destruct (s_rcomp _); injection H as <- <- <-; exact L| |injection H as <- <- <-; exact L].
  all: match type of H with (bind ?x _) = _ => destruct x as [[[ev5 s5] t5]| |] eqn:D5; try discriminate; cbn [bind] in H end; apply IH in D5; injection H as <- <- <-.
  all: rewrite D5; cbn [s_set_resets s_set_world s_world]; rewrite L, app_assoc; reflexivity.
Qed.
Lemma open_stream_rec s id c s' t : open_stream R s id c = Ok (s', t) -> snd (s_world s') = snd (s_world s) ++ t.
Proof.
  unfold open_stream. destruct (entry_by_id _ id) as [e|]; [|discriminate]. cbv zeta.
  destruct (e_conf e); [intro H; injection H as <- <-; cbn; rewrite app_nil_r; reflexivity|].
  destruct (estate_eqb _ _); [|intro H; injection H as <- <-; cbn; rewrite app_nil_r; reflexivity].
  destruct (in_band c); [intro H; injection H as <- <-; cbn; rewrite app_nil_r; reflexivity|].
  destruct (negb (s_assoc s)); [intro H; injection H as <- <-; cbn; rewrite app_nil_r; reflexivity|].
  destruct (negb (p_stream _ _ _)); [intro H; injection H as <- <-; cbn; rewrite app_nil_r; reflexivity|].
  destruct (configure R (s_world s) _) as [[[[ok w1] e1] t1]| |] eqn:CF; try discriminate. cbn [bind]. apply configure_rec in CF. intro H; injection H as <- <-. exact CF.
Qed.
Lemma close_rec s id s' t : close_stream R s id = (s', t) -> snd (s_world s') = snd (s_world s) ++ t.
Proof.
  unfold close_stream. destruct (entry_by_id _ id); [|intro H; injection H as <- <-; rewrite app_nil_r; reflexivity].
  destruct (propagate_close R _ _ _ id) as [[[pe w'] rp'] t'] eqn:PC. apply propagate_rec in PC. intro H; injection H as <- <-. exact PC.
Qed.
Lemma open_all_rec : forall l s confs s' t, open_all R s confs l = Ok (s', t) -> snd (s_world s') = snd (s_world s) ++ t.
Proof.
  induction l as [|[c id] l IH]; intros s confs s' t H; cbn [open_all] in H; [injection H as <- <-; rewrite app_nil_r; reflexivity|].
  destruct (conf_of confs c); [|discriminate]. destruct (open_stream R s id c0) as [[s1 t1]| |] eqn:O; try discriminate. cbn [bind] in H.
  destruct (open_all R s1 confs l) as [[s2 t2]| |] eqn:L; try discriminate. cbn [bind] in H. injection H as <- <-. apply open_stream_rec in O. apply IH in L. rewrite L, O, app_assoc. reflexivity.
Qed.
Lemma write_rec s id b buf s' t : write R s id b buf = Ok (s', t) -> snd (s_world s') = snd (s_world s) ++ t.
Proof.
  unfold write. destruct (s_st s); try discriminate. destruct (_ || _); [discriminate|]. destruct (entry_by_id _ id); [|discriminate]. destruct (negb _); [discriminate|]. destruct (negb _); [discriminate|].
  cbn [rec p_write]. destruct (p_write P _ _ _ _) as [[|] w]; [|discriminate]. intro H; injection H as <- <-. reflexivity.
Qed.
Lemma threshold_world s id v s' : set_threshold s id v = Ok s' -> s_world s' = s_world s.
Proof. unfold set_threshold. destruct (entry_by_id _ id); [|discriminate]. intro H; injection H as <-. reflexivity. Qed.
End Rec.

(** The calls recorded so far. *)
Definition tape {A} (r : @rtc (A * list act)) : list act := snd (s_world (r_s r)).
(** Datagrams, timeouts and the start of the association change the recorded implementation, but not the tape. *)
Definition keeps_tape {A} (o : @op (A * list act)) (l : list act) : Prop :=
  match o with OInit _ _ w | OInput _ w | OTimeout _ w => snd w = l | _ => True end.

Theorem C49_acts_are_real : forall A (P : proto A) r o x,
  step (rec P) r o = Ok x -> keeps_tape o (tape r) -> tape (o_r x) = tape r ++ o_acts x.
Proof.
  intros A P r o x H K. unfold tape. destruct o as [c|id|id|cl sn w|nw w|now w|f b|id b buf|id v]; cbn [step] in H; cbn [keeps_tape] in K.
  - destruct (ChanModel.new_channel _ _) as [[h id]| |]; try discriminate. cbn [bind] in H. injection H as <-. cbn. rewrite app_nil_r. reflexivity.
  - destruct (conf_of _ _); [|discriminate]. destruct (ChanModel.confirm _ _); try discriminate. cbn [bind] in H. injection H as <-. cbn. rewrite app_nil_r. reflexivity.
  - destruct (ChanModel.stream_by_channel _ _); [|injection H as <-; cbn; rewrite app_nil_r; reflexivity].
    destruct (close_stream (rec P) _ _) as [s t] eqn:C. injection H as <-. exact (close_rec P _ _ _ _ C).
  - destruct (s_st (r_s r)) eqn:ST; try (injection H as <-; cbn; rewrite app_nil_r; reflexivity).
    destruct (init _ _ _ _ _) as [s| |] eqn:I; try discriminate. cbn [bind] in H. injection H as <-. cbn. rewrite app_nil_r. unfold init in I. rewrite ST in I. injection I as <-.
    destruct sn; [exact K|]. destruct cl; [exact K|reflexivity].
  - injection H as <-. cbn. rewrite app_nil_r. unfold handle_input. destruct (_ && _); exact K.
  - destruct (now <? _); [injection H as <-; cbn; rewrite app_nil_r; reflexivity|]. destruct (ChanModel.handle_timeout _ _ _) as [h op]. 
    destruct (open_all (rec P) _ _ _) as [[s1 t]| |] eqn:O; try discriminate. cbn [bind] in H. injection H as <-. cbn. apply open_all_rec in O. rewrite O. f_equal. unfold handle_timeout. destruct (s_st (r_s r)); [reflexivity|exact K..].
  - destruct (do_poll (rec P) f _) as [[[ev s] t]| |] eqn:D; try discriminate. cbn [bind] in H. apply do_poll_rec in D. destruct ev as [ev|]; [|injection H as <-; exact D].
    destruct (translate _ _ _) as [[r' us]| |] eqn:T; try discriminate. cbn [bind] in H. injection H as <-. cbn. rewrite <- D. clear - T. unfold translate, push_back in T.
    destruct ev; repeat match type of T with context [match ?x with _ => _ end] => destruct x; try discriminate end; cbn [bind] in T; try (injection T as <- <-; reflexivity).
  - destruct (negb _); [injection H as <-; cbn; rewrite app_nil_r; reflexivity|]. destruct (ChanModel.stream_by_channel _ _); [|discriminate]. destruct (available _ _ <? _); [injection H as <-; cbn; rewrite app_nil_r; reflexivity|].
    destruct (write (rec P) _ _ _ _) as [[s t]| |] eqn:D; try discriminate; injection H as <-; [|cbn; rewrite app_nil_r; reflexivity]. exact (write_rec P _ _ _ _ _ _ D).
  - destruct (negb _); [injection H as <-; cbn; rewrite app_nil_r; reflexivity|]. destruct (ChanModel.stream_by_channel _ _); [|discriminate].
    destruct (set_threshold _ _ _) as [s| |] eqn:T; try discriminate. cbn [bind] in H. injection H as <-. cbn. rewrite app_nil_r. rewrite (threshold_world _ _ _ _ T). reflexivity.
Qed.
Print Assumptions C49_acts_are_real.

(** The life of SctpProps with the recorder. *)
Example recorded_life : match run (rec toyP) (rtc0 (toy0, []) 0 0)
    [ONew cf_in; OConfirm 0; OInit true true (toy0, []); OTimeout 1 (toy0, []); OPoll 20 false] with Ok (r, _) => Some (tape r) | _ => None end =
  Some [AOpened 0; ARel 0 false TReliable 0; AWrite 0 PDcep [3; 0; 0; 0; 0; 0; 0; 0; 0; 2; 0; 0; 104; 105]].
Proof. vm_compute. reflexivity. Qed.

(** Thresholds: set once on the stream at the next poll, again only when the value changes. *)
Definition logthr {A} (P : proto A) : proto (A * list (Z * Z)) := {|
  p_transmit := fun x n => let (t, w) := p_transmit P (fst x) n in (t, (w, snd x));
  p_poll := fun x => match p_poll P (fst x) with None => None | Some (e, w) => Some (e, (w, snd x)) end;
  p_open := fun x id => let (o, w) := p_open P (fst x) id in (o, (w, snd x));
  p_stream := fun x id => p_stream P (fst x) id;
  p_live := fun x id => p_live P (fst x) id;
  p_rel := fun x id u t v => let (ok, w) := p_rel P (fst x) id u t v in (ok, (w, snd x));
  p_write := fun x id p b => let (ok, w) := p_write P (fst x) id p b in (ok, (w, snd x));
  p_read := fun x id => let (m, w) := p_read P (fst x) id in (m, (w, snd x));
  p_thr := fun x id v => let (ok, w) := p_thr P (fst x) id v in (ok, (w, snd x ++ [(id, v)]));
  p_buffered := fun x id => p_buffered P (fst x) id;
  p_close := fun x id => let (ok, w) := p_close P (fst x) id in (ok, (w, snd x));
  p_down := fun x => p_down P (fst x) |}.
Definition open0 := [ONew cf_neg; OConfirm 0; OInit true true (toy0, [] : list (Z * Z)); OTimeout 1 (toy0, []); OPoll 20 false].
Definition thr_log (l : list op) := match run (logthr toyP) (rtc0 (toy0, []) 0 0) (open0 ++ l) with Ok (r, _) => Some (snd (s_world (r_s r))) | _ => None end.
Example thresholds_ex :
  thr_log [OThreshold 0 7; OPoll 20 false; OThreshold 0 7; OPoll 20 false; OThreshold 0 9; OPoll 20 false] = Some [(5, 7); (5, 9)] /\
  thr_log [OThreshold 0 7; OThreshold 0 9; OPoll 20 false; OPoll 20 false] = Some [(5, 9)] /\
  thr_log [OThreshold 0 7; OThreshold 0 7; OPoll 20 false] = Some [(5, 7)].
Proof. vm_compute. auto. Qed.

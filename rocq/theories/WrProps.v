(** C54: the samples an application writes become RTP packets. *)
From Verif Require Import Base BaseFacts SeqModel MtimeModel SendQueueModel EvictModel Vp8Model ExtModel HeaderModel NackModel
  TxModel TxSpec TxProofs TxProofs2 WrModel WrSpec WrProofs WrProofs2 WrProofs3 WrProofs4.

Section C54.
Variables (P : Type) (fresh : codec -> P) (cut : P -> Z -> list Z -> P * option (list (list Z))).
Variables (ex : Z -> Z -> Z -> bool) (al : Z) (ps : list wparam) (mtu mw : Z) (decl : decls) (w0 : wr P) (ops : list wop) (w : wr P) (h : history).
Hypothesis RUN : session fresh cut ex al ps mtu mw decl w0 ops w h.

Lemma C54_inv : INV P fresh cut ps (kinds_of w0) decl mtu w h.
Proof.
  destruct RUN as (H1 & H2 & H3 & H4 & H5 & H6 & H7). exact (run_inv P fresh cut ps _ decl mtu ex al H4 H5 ops _ [] _ _ (start_inv _ _ _ _ _ _ _ _ _ _ H1 eq_refl) H2 H3 H6 H7).
Qed.
Lemma C54_mids : map d_mid (w_medias w) = map d_mid (w_medias w0).
Proof.
  pose proof (i_kinds _ _ _ _ _ _ _ _ _ C54_inv) as K. unfold kinds_of in K. apply (f_equal (map fst)) in K. rewrite !map_map in K. exact K.
Qed.
Lemma C54_medium m : In m (map d_mid (w_medias w0)) -> exists d, medium w m d /\ waiting m w = d_wait d.
Proof.
  rewrite <- C54_mids. intro H. destruct (find_media P w m (i_nd _ _ _ _ _ _ _ _ _ C54_inv) H) as (d & A & B & C). exists d. split; [split; assumption|exact C].
Qed.

(** [write] answers Ok exactly when the payload type is one of the session's, the RID, if there is one, is
    allowed on the medium, and at most 100 samples wait; then the sample is the last one waiting.  If it does not,
    nothing changes. *)
Theorem C54_write : forall m s, In m (map d_mid (w_medias w0)) ->
  exists d w' e, medium w m d /\ wstep P fresh cut ex al ps mtu w (WWrite m s) = Ok (w', OWrite (Some e)) /\
    (e = None <-> (exists p, In p ps /\ wp_pt p = m_pt s) /\ (forall r, m_rid s = Some r -> rid_allowed (d_rids d) r) /\ zlen (waiting m w) <= 100) /\
    (e = None -> waiting m w' = waiting m w ++ [s] /\ forall m', m' <> m -> waiting m' w' = waiting m' w) /\
    (e <> None -> w' = w) /\ w_streams w' = w_streams w.
Proof.
  intros m s Hm. cbn [wstep]. destruct (write_media P ps (w_medias w) m s) as [[ds e]|] eqn:E.
  2:{ exfalso. apply (write_none P ps) in E. apply E. rewrite C54_mids. exact Hm. }
  destruct (write_split _ _ _ _ _ _ _ E) as (l1 & d & l2 & E1 & E2 & E3 & E4 & E5). subst e.
  assert (medium w m d) as MD by (split; [rewrite E1; apply in_elt|exact E2]).
  assert (waiting m w = d_wait d) as EW by (unfold waiting; rewrite E5; reflexivity).
  exists d, (mkWr ds (w_streams w) (w_tw w) (w_closing w)), (snd (write1 P ps d s)). split; [exact MD|]. split; [reflexivity|].
  pose proof (write1_mid P ps d s) as (W1 & _ & _). pose proof (write1_wait P ps d s) as W2.
  pose proof (i_nd _ _ _ _ _ _ _ _ _ C54_inv) as ND. rewrite E1, map_app in ND. cbn [map] in ND.
  assert (forall m', find (fun d0 => id_eq (d_mid d0) m') (l1 ++ fst (write1 P ps d s) :: l2) =
            match find (fun d0 => id_eq (d_mid d0) m') (w_medias w) with
            | Some d0 => if id_eq m m' then Some (fst (write1 P ps d s)) else Some d0 | None => None end) as FF.
  { intro m'. rewrite E1. clear - ND W1 E2. induction l1 as [|d1 l1 IH]; cbn [app find].
    - rewrite W1, E2. destruct (id_eq m m') eqn:Q; [reflexivity|]. destruct (find _ l2); reflexivity.
    - destruct (id_eq_spec (d_mid d1) m') as [EM|NM].
      + destruct (id_eq_spec m m') as [EQ|]; [|reflexivity]. exfalso. inversion ND as [|? ? N _]; subst. apply N. rewrite in_app_iff. right. left. assumption.
      + apply IH. inversion ND; assumption. }
  split; [|split; [|split; [|reflexivity]]].
  - rewrite EW. unfold write1.
    destruct (existsb (fun p => wp_pt p =? m_pt s) ps) eqn:EP; cbn [negb].
    2:{ cbn [snd]. split; [discriminate|]. intros ((p & P1 & P2) & _). exfalso.
        assert (existsb (fun p => wp_pt p =? m_pt s) ps = true) as X by (apply existsb_exists; exists p; split; [exact P1|lia]). congruence. }
    assert (exists p, In p ps /\ wp_pt p = m_pt s) as HP by (apply existsb_exists in EP as (p & P1 & P2); exists p; split; [exact P1|lia]).
    assert (forall r, rids_contains (d_rids d) r = true <-> rid_allowed (d_rids d) r) as HR.
    { intro r. destruct (d_rids d) as [| |l]; cbn [rids_contains rid_allowed]; [intuition discriminate|intuition|].
      rewrite existsb_exists. split; [intros (x & X1 & X2); apply id_eq_true in X2; subst; exact X1|intro X; exists r; split; [exact X|apply id_eq_refl]]. }
    destruct (m_rid s) as [r|].
    + destruct (rids_contains (d_rids d) r) eqn:RC; cbn [negb].
      * destruct (Z.ltb_spec 100 (zlen (d_wait d))); cbn [snd]; (split; [|]); try discriminate; try reflexivity.
        -- intros (_ & _ & X). lia.
        -- intros _. split; [exact HP|]. split; [|lia]. intros r0 [= <-]. apply HR, RC.
      * cbn [snd]. split; [discriminate|]. intros (_ & X & _). specialize (X r eq_refl). apply HR in X. congruence.
    + destruct (Z.ltb_spec 100 (zlen (d_wait d))); cbn [snd]; (split; [|]); try discriminate; try reflexivity.
      -- intros (_ & _ & X). lia.
      -- intros _. split; [exact HP|]. split; [|lia]. discriminate.
  - intro EN. rewrite EN in W2. unfold waiting at 1 3. cbn [w_medias]. rewrite E3. split.
    + rewrite FF, E5, id_eq_refl, W2, EW. reflexivity.
    + intros m' N. rewrite FF. unfold waiting. destruct (find (fun d0 => id_eq (d_mid d0) m') (w_medias w)); [|reflexivity]. destruct (id_eq_spec m m'); [congruence|reflexivity].
  - intro EN. assert (fst (write1 P ps d s) = d) as ED.
    { clear - EN. unfold write1 in *. destruct (negb _); [reflexivity|]. destruct (match m_rid s with Some _ => _ | None => _ end); [reflexivity|].
      destruct (100 <? _); [reflexivity|]. contradiction. }
    rewrite E3, ED, <- E1. destruct w; reflexivity.
Qed.

(** Every sample accepted is taken off once, in the order written, or still waits; never do more than 101 wait. *)
Theorem C54_in_order : forall m, In m (map d_mid (w_medias w0)) ->
  accepted m h = taken m (acts h) ++ waiting m w /\ zlen (waiting m w) <= 101.
Proof.
  intros m Hm. destruct (C54_medium m Hm) as (d & [D1 <-] & ->).
  pose proof (i_media _ _ _ _ _ _ _ _ _ C54_inv) as IM. rewrite Forall_forall in IM. destruct (IM d D1) as [F L _ _]. auto.
Qed.

(** A timeout takes the first sample of every medium that has one, in the order of the media, and answers Ok; or it stops
    at a sample that fails, which is lost, and answers with its error, and the media that come after keep theirs.
    It does not panic. *)
Theorem C54_timeout : exists w' a e, wstep P fresh cut ex al ps mtu w WTimeout = Ok (w', OTimeout a e) /\
  (w_closing w = true /\ a = [] /\ e = None /\ w' = w \/
   w_closing w = false /\ exists rest, map (fun x => (media_of x, sample_of x)) a ++ rest = due w /\
     match e with
     | None => rest = [] /\ forallb is_sent a = true
     | Some er => exists a0 m s, a = a0 ++ [Dropped m s er] /\ forallb is_sent a0 = true
     end) /\
  (Forall numbers_fit a -> forall m, In m (map d_mid (w_medias w0)) -> waiting m w = taken m a ++ waiting m w').
Proof.
  pose proof C54_inv as HI. cbn [wstep]. destruct (w_closing w) eqn:CL.
  { exists w, [], None. split; [reflexivity|]. split; [left; repeat split|]. reflexivity. }
  destruct RUN as (R1 & R2 & R3 & R4 & R5 & R6 & R7).
  assert (exists ds xs a e, pay_all P fresh cut ps mtu (w_medias w) (w_streams w) = Ok (ds, xs, a, e)) as (ds & xs & a & e & E).
  { pose proof (i_media _ _ _ _ _ _ _ _ _ HI) as IM. pose proof (i_ss _ _ _ _ _ _ _ _ _ HI) as IS. rewrite CL in IS.
    assert (forall xs, exists ds' xs' a e, pay_all P fresh cut ps mtu (w_medias w) xs = Ok (ds', xs', a, e)) as X; [|apply X].
    assert (Forall (fun d => Forall (checked ps) (d_wait d)) (w_medias w)) as HC by (eapply Forall_impl; [|exact IM]; cbv beta; intros d [_ _ C _]; exact C).
    clear - HC R4 R5. induction HC as [|d ds C _ IH]; intro xs; cbn [pay_all]; [eauto|].
    destruct (pay_media_total P fresh cut ps mtu 0 (fun _ => []) R4 R5 d xs C) as (d' & xs' & a & e & ->). cbn [bind]. destruct e; [eauto 10|].
    destruct (IH xs') as (ds' & xs2 & a2 & e2 & ->). cbn [bind]. eauto 10. }
  rewrite E. cbn [bind]. do 3 eexists. split; [reflexivity|]. split.
  - right. split; [reflexivity|].
    destruct (pay_all_MI P fresh cut ps mtu _ _ _ (fun m => accepted m h) _ _ _ _ (i_nd _ _ _ _ _ _ _ _ _ HI) (i_media _ _ _ _ _ _ _ _ _ HI) E) as (_ & _ & _ & rest & X1 & X2).
    exists rest. split; [exact X1|exact X2].
  - intros NF m Hm.
    assert (INV P fresh cut ps (kinds_of w0) decl mtu (mkWr ds xs (w_tw w) false) (h ++ [(WTimeout, OTimeout a e)])) as HI2.
    { eapply (step_inv P fresh cut ps _ decl mtu ex al R4 R5 w h WTimeout); [exact HI|exact I|exact I| |cbn [acts flat_map snd]; rewrite app_nil_r; exact NF].
      cbn [wstep]. rewrite CL, E. reflexivity. }
    destruct (C54_in_order m Hm) as [F _].
    assert (In m (map d_mid (w_medias (mkWr ds xs (w_tw w) false)))) as Hm2.
    { pose proof (i_kinds _ _ _ _ _ _ _ _ _ HI2) as K. unfold kinds_of in K. apply (f_equal (map fst)) in K. rewrite !map_map in K.
      change (In m (map (fun x : media P => fst (d_mid x, d_audio x)) (w_medias (mkWr ds xs (w_tw w) false)))). rewrite K. exact Hm. }
    destruct (find_media P _ m (i_nd _ _ _ _ _ _ _ _ _ HI2) Hm2) as (d & D1 & D2 & ->).
    pose proof (i_media _ _ _ _ _ _ _ _ _ HI2) as IM. rewrite Forall_forall in IM. destruct (IM d D1) as [F2 _ _ _].
    rewrite D2, accepted_app, acts_app in F2. cbn [accepted acts flat_map snd] in F2. rewrite !app_nil_r, taken_app, F, <- app_assoc in F2.
    apply app_inv_head in F2. exact F2.
Qed.

(** Each frame goes to a stream of its medium, the one of its RID if it names one; its chunks are what one
    packetizer per medium, payload type and RID makes of the samples, one after the other. *)
Theorem C54_right_stream : forall m s k n cs, In (Sent m s k n cs) (acts h) ->
  exists ss rtx r q0, nth_error decl k = Some (ss, rtx, m, r, q0) /\ (m_rid s = None \/ m_rid s = r).
Proof.
  intros m s k n cs H. pose proof (i_right _ _ _ _ _ _ _ _ _ C54_inv) as IR. rewrite Forall_forall in IR. exact (IR _ H).
Qed.
Theorem C54_one_packetizer : forall m pt r, In m (map d_mid (w_medias w0)) -> cut_log m pt r (acts h) <> [] ->
  exists p, In p ps /\ wp_pt p = pt /\ cuts cut (align mtu) (fresh (wp_codec p)) (cut_log m pt r (acts h)).
Proof.
  intros m pt r Hm N. destruct (C54_medium m Hm) as (d & [D1 <-] & _).
  pose proof (i_media _ _ _ _ _ _ _ _ _ C54_inv) as IM. rewrite Forall_forall in IM. destruct (IM d D1) as [_ _ _ S].
  specialize (S pt r). destruct (get_pay P (d_pay d) (pt, r)); [|contradiction]. destruct S as (q & P1 & P2 & P3).
  exists q. split; [exact P1|]. split; [exact P2|]. eapply cuts_to_cuts, P3.
Qed.

(** What leaves a stream on its SSRC is a prefix of the packets of the frames, one frame after the other, numbered
    without a gap from the stream's first number; each packet with the payload, payload type, time, marker and extension
    values it must have. *)
Theorem C54_on_the_wire : forall k ss rtx m r q0, nth_error decl k = Some (ss, rtx, m, r, q0) ->
  exists ws rest, frames ps (kinds_of w0) k q0 (acts h) (ws ++ rest) /\
    Forall2 carries_all (filter (on_ssrc ss) (out k h)) ws.
Proof.
  intros k ss rtx m r q0 D. destruct (i_ss _ _ _ _ _ _ _ _ _ C54_inv) as [_ IS]. destruct (IS _ _ _ _ _ _ D) as (x & rs & W & H1 & H2 & H3 & H4).
  destruct (si_run _ _ _ _ _ _ _ _ _ _ _ H3) as (a & ws & rest & _ & _ & H5 & H6 & _).
  exists ws, (map fst (a_queue a) ++ rest). rewrite <- H6. auto.
Qed.
End C54.
Print Assumptions C54_write.
Print Assumptions C54_in_order.
Print Assumptions C54_timeout.
Print Assumptions C54_right_stream.
Print Assumptions C54_one_packetizer.
Print Assumptions C54_on_the_wire.

(** * A concrete session meets the hypotheses *)
(** A packetizer that makes a chunk of every byte, and tells the samples it cut from 0 on; it fails on none. *)
Definition C54_fresh (c : codec) : nat := O.
Definition C54_cut (st : nat) (mtu : Z) (data : list Z) : nat * option (list (list Z)) :=
  match data with [] => (st, None) | _ => (S st, Some (map (fun b => [Z.of_nat st; b]) data)) end.
Definition C54_ps : list wparam := [mkWP (mkPar 111 None 48000) Opus; mkWP (mkPar 96 (Some 97) 90000) Vp8].
Definition C54_map : extmap := Some AbsoluteSendTime :: Some VideoOrientation :: rep None 14.
Definition C54_never (c r t : Z) : bool := false.
Definition C54_ev : extvals := mkEV None None (Some 1) None None None None None None None None None None None None None.
Definition C54_audio (t : Z) (data : list Z) : sample := mkSm 111 None (1000000 * t) (mkT t 48000) (t =? 0) data ev0 false.
Definition C54_video (t : Z) (data : list Z) : sample := mkSm 96 None (1000000 * t) (mkT t 30) false data C54_ev false.
Definition C54_decl : decls := [(10, None, [97], None, 5); (20, Some 21, [118], None, 900)].
Definition C54_w0 : wr nat :=
  mkWr [mkMd [97] true RNone [] []; mkMd [118] false RNone [] []]
       [tx_new 10 None [97] None 1200 0 5 0 0; tx_new 20 (Some 21) [118] None 1200 0 900 0 0] 70 false.
Definition C54_poll (k : nat) (now : Z) : wop := WStream k (XPoll now C54_map true (map wp_par C54_ps)).
Definition C54_ops : list wop :=
  [WWrite [97] (C54_audio 0 [1]); WWrite [118] (C54_video 1 [7; 8; 9]); WWrite [118] (C54_video 2 [4]);
   WTimeout; WStream 0 (XTimeout 1000000 true [99] None); WStream 1 (XTimeout 1000000 false [99] (Some 96));
   C54_poll 1 1000000; C54_poll 0 1000000; C54_poll 1 1000000; WTimeout; WStream 1 (XTimeout 2000000 false [99] (Some 96)); C54_poll 1 2000000; C54_poll 1 2000000;
   WWrite [118] (C54_video 3 []); WTimeout; WWrite [119] (C54_audio 1 [2])].
Definition C54_run (w0 : wr nat) (ops : list wop) : res (wr nat * history) := wrun nat C54_fresh C54_cut C54_never 0 C54_ps 1200 w0 ops.
Definition C54_summary (l : list (list Z * receipt)) : list (Z * Z * bool * Z * option Z * list Z) :=
  map (fun p => let h := rc_hdr (snd p) in (payload_type h, rc_seq (snd p), marker h, timestamp h, video_orientation (ext_vals h), payload_of p)) l.

Example C54_example : exists w h, C54_run C54_w0 C54_ops = Ok (w, h) /\
  session C54_fresh C54_cut C54_never 0 C54_ps 1200 1200 C54_decl C54_w0 C54_ops w h /\
  C54_summary (out 0 h) = [(111, 5, true, 0, None, [0; 1])] /\
  C54_summary (out 1 h) = [(96, 900, false, 3000, None, [0; 7]); (96, 901, false, 3000, None, [0; 8]);
                           (96, 902, true, 3000, Some 1, [0; 9]); (96, 903, true, 6000, Some 1, [1; 4])] /\
  accepted [118] h = [C54_video 1 [7; 8; 9]; C54_video 2 [4]; C54_video 3 []] /\
  nth_error (map snd h) 14 = Some (OTimeout [Dropped [118] (C54_video 3 []) Packet] (Some Packet)) /\
  nth_error (map snd h) 15 = Some (OWrite None).
Proof.
  eexists. eexists. split; [vm_compute; reflexivity|]. split.
  - split; [|split; [|split; [|split; [|split; [|split]]]]].
    + split; [repeat constructor|]. split; [repeat constructor; cbn [In map d_mid]; intuition discriminate|]. split; [|reflexivity].
      constructor; [exists 0, 0; split; [reflexivity|split; [discriminate|lia]]|].
      constructor; [exists 0, 0; split; [reflexivity|split; [discriminate|lia]]|]. constructor.
    + repeat constructor.
    + repeat constructor; cbn; lia.
    + repeat constructor.
    + lia.
    + vm_compute. reflexivity.
    + repeat constructor; vm_compute; congruence.
  - split; [vm_compute; reflexivity|]. split; [vm_compute; reflexivity|]. split; [vm_compute; reflexivity|]. split; vm_compute; reflexivity.
Qed.


(** * Where it breaks *)
(** [write] says it fails if the RID, [None] or a value, does not match anything negotiated; but [None] is accepted on a medium that
    only has RIDs, and on one with no stream at all, where the sample is lost later and the timeout fails. *)
Definition C54_w1 (l : list tx) : wr nat := mkWr [mkMd [118] false (RSome [[104]; [108]]) [] []] l 70 false.
Theorem C54_none_rid_is_checked_refuted : exists w h s,
  session C54_fresh C54_cut C54_never 0 C54_ps 1200 1200 [] (C54_w1 []) [WWrite [118] s; WTimeout] w h /\ m_rid s = None /\
  (forall r, rid_allowed (RSome [[104]; [108]]) r <-> r = [104] \/ r = [108]) /\
  map snd h = [OWrite (Some None); OTimeout [Dropped [118] s NoSenderSource] (Some NoSenderSource)].
Proof.
  eexists. eexists. exists (C54_video 1 [7]). split; [|split; [reflexivity|split]].
  - split; [|split; [|split; [|split; [|split; [|split]]]]].
    + split; [repeat constructor|]. split; [repeat constructor; intros []|]. split; [constructor|reflexivity].
    + repeat constructor.
    + repeat constructor; cbn; lia.
    + repeat constructor.
    + lia.
    + vm_compute. reflexivity.
    + repeat constructor.
  - intro r. cbn [rid_allowed In]. intuition congruence.
  - reflexivity.
Qed.
Print Assumptions C54_none_rid_is_checked_refuted.

(** A sample without a RID on a simulcast medium goes to whichever of its streams comes first: the high layer or the low. *)
Definition C54_layer (r : Z) (ss : Z) : tx := tx_new ss None [118] (Some [r]) 1200 0 900 0 0.
Definition C54_layer_decl (r ss : Z) : Z * option Z * list Z * option (list Z) * Z := (ss, None, [118], Some [r], 900).
Theorem C54_none_rid_has_one_stream_refuted : exists w w' h h' s,
  session C54_fresh C54_cut C54_never 0 C54_ps 1200 1200 [C54_layer_decl 104 20; C54_layer_decl 108 30]
    (C54_w1 [C54_layer 104 20; C54_layer 108 30]) [WWrite [118] s; WTimeout] w h /\
  session C54_fresh C54_cut C54_never 0 C54_ps 1200 1200 [C54_layer_decl 108 30; C54_layer_decl 104 20]
    (C54_w1 [C54_layer 108 30; C54_layer 104 20]) [WWrite [118] s; WTimeout] w' h' /\
  acts h = [Sent [118] s 0 900 [[0; 7]]] /\ acts h' = [Sent [118] s 0 900 [[0; 7]]].
Proof.
  eexists. eexists. eexists. eexists. exists (C54_video 1 [7]).
  assert (forall r ss, declared 1200 0 (C54_layer r ss) (C54_layer_decl r ss)) as DE.
  { intros r ss. exists 0, 0. split; [reflexivity|split; [discriminate|lia]]. }
  split; [|split; [|split]].
  - split; [|split; [|split; [|split; [|split; [|split]]]]].
    + split; [repeat constructor|]. split; [repeat constructor; intros []|]. split; [|reflexivity].
      constructor; [apply DE|]. constructor; [apply DE|]. constructor.
    + repeat constructor.
    + repeat constructor; cbn; lia.
    + repeat constructor.
    + lia.
    + vm_compute. reflexivity.
    + repeat constructor; vm_compute; congruence.
  - split; [|split; [|split; [|split; [|split; [|split]]]]].
    + split; [repeat constructor|]. split; [repeat constructor; intros []|]. split; [|reflexivity].
      constructor; [apply DE|]. constructor; [apply DE|]. constructor.
    + repeat constructor.
    + repeat constructor; cbn; lia.
    + repeat constructor.
    + lia.
    + vm_compute. reflexivity.
    + repeat constructor; vm_compute; congruence.
  - reflexivity.
  - reflexivity.
Qed.
Print Assumptions C54_none_rid_has_one_stream_refuted.

(** A medium whose samples fail keeps the ones after it from sending anything: however many rounds the application
    makes, writing to both and passing the time, no sample of the second medium is taken, and of the first all are lost;
    although the second has its stream. *)
Definition C54_w2 : wr nat :=
  mkWr [mkMd [97] true RNone [] []; mkMd [118] false RNone [] []] [tx_new 20 (Some 21) [118] None 1200 0 900 0 0] 70 false.
Definition C54_round (s t : sample) : list wop := [WWrite [97] s; WWrite [118] t; WTimeout].
Theorem C54_no_medium_stops_another_refuted : exists s t, forall n, exists w h,
  session C54_fresh C54_cut C54_never 0 C54_ps 1200 1200 [(20, Some 21, [118], None, 900)] C54_w2 (concat (repeat (C54_round s t) n)) w h /\
  taken [118] (acts h) = [] /\ taken [97] (acts h) = repeat s n /\
  Forall (fun o => match o with OTimeout _ e => e = Some NoSenderSource | _ => True end) (map snd h).
Proof.
  exists (C54_audio 0 [1]), (C54_video 1 [7]). set (s := C54_audio 0 [1]). set (t := C54_video 1 [7]).
  assert (forall n q, exists q' h,
    C54_run (mkWr [mkMd [97] true RNone [] []; mkMd [118] false RNone q []] (w_streams C54_w2) 70 false) (concat (repeat (C54_round s t) n)) =
      Ok (mkWr [mkMd [97] true RNone [] []; mkMd [118] false RNone q' []] (w_streams C54_w2) 70 false, h) /\
    taken [118] (acts h) = [] /\ taken [97] (acts h) = repeat s n /\ Forall numbers_fit (acts h) /\
    Forall (fun o => match o with OTimeout _ e => e = Some NoSenderSource | _ => True end) (map snd h)) as H.
  { induction n as [|n IH]; intro q.
    - exists q, []. repeat split; constructor.
    - unfold C54_run in *. cbn [repeat concat C54_round app wrun].
      assert (forall q, exists e, wstep nat C54_fresh C54_cut C54_never 0 C54_ps 1200 (mkWr [mkMd [97] true RNone [s] []; mkMd [118] false RNone q []] (w_streams C54_w2) 70 false) (WWrite [118] t) =
        Ok (mkWr [mkMd [97] true RNone [s] []; mkMd [118] false RNone (if 100 <? zlen q then q else q ++ [t]) []] (w_streams C54_w2) 70 false, OWrite (Some e))) as W.
      { intro q0. unfold wstep, write_media, write1. cbn -[Z.ltb zlen]. destruct (100 <? zlen q0); eexists; reflexivity. }
      destruct (W q) as (e & W1). destruct (IH (if 100 <? zlen q then q else q ++ [t])) as (q' & h & I1 & I2 & I3 & I4 & I5).
      change (wstep nat C54_fresh C54_cut C54_never 0 C54_ps 1200 (mkWr [mkMd [97] true RNone [] []; mkMd [118] false RNone q []] (w_streams C54_w2) 70 false) (WWrite [97] s))
        with (Ok (@mkWr nat [mkMd [97] true RNone [s] []; mkMd [118] false RNone q []] (w_streams C54_w2) 70 false, OWrite (Some None))).
      cbn [bind fst snd]. rewrite W1. cbn [bind fst snd].
      change (wstep nat C54_fresh C54_cut C54_never 0 C54_ps 1200 (mkWr [mkMd [97] true RNone [s] []; mkMd [118] false RNone (if 100 <? zlen q then q else q ++ [t]) []] (w_streams C54_w2) 70 false) WTimeout)
        with (Ok (@mkWr nat [mkMd [97] true RNone [] []; mkMd [118] false RNone (if 100 <? zlen q then q else q ++ [t]) []] (w_streams C54_w2) 70 false, OTimeout [Dropped [97] s NoSenderSource] (Some NoSenderSource))).
      cbn [bind fst snd]. rewrite I1. cbn [bind fst snd]. do 2 eexists. split; [reflexivity|].
      split; [exact I2|]. split; [cbn; f_equal; exact I3|]. split; [constructor; [exact I|exact I4]|]. repeat constructor; exact I5. }
  intro n. destruct (H n []) as (q' & h & H1 & H2 & H3 & H4 & H5). eexists. exists h. split; [|auto].
  split; [|split; [|split; [|split; [|split; [|split]]]]].
  - split; [repeat constructor|]. split; [repeat constructor; cbn [In map d_mid]; intuition discriminate|]. split; [|reflexivity].
    constructor; [exists 0, 0; split; [reflexivity|split; [discriminate|lia]]|]. constructor.
  - clear. induction n; cbn [repeat concat]; [constructor|]. repeat constructor. exact IHn.
  - clear. induction n; cbn [repeat concat]; [constructor|]. repeat constructor; [cbn; lia..|exact IHn].
  - repeat constructor.
  - lia.
  - exact H1.
  - exact H4.
Qed.
Print Assumptions C54_no_medium_stops_another_refuted.

(** One send stream, seen from the frame API: a step keeps its next number, MID and RID; what it sends is
    what was written. *)
From Verif Require Import Base BaseFacts SeqModel MtimeModel SendQueueModel EvictModel Vp8Model ExtModel HeaderModel NackModel
  TxModel TxSpec TxProofs TxProofs2 TxProofs3 TxProofs4 WrModel WrSpec.

(** * the next number, MID and RID *)
Definition same (s s' : tx) : Prop := x_seq s' = x_seq s /\ x_mid s' = x_mid s /\ x_rid s' = x_rid s.
Lemma same_refl s : same s s. Proof. repeat split. Qed.
Lemma same_trans a b c : same a b -> same b c -> same a c.
Proof. intros (A & B & C) (D & E & F). repeat split; congruence. Qed.

Ltac sref := unfold same; cbn; repeat split; reflexivity.
Ltac inv_res :=
  repeat match goal with
  | H : Ok _ = Ok _ |- _ => injection H; clear H; intros; subst
  | H : (_, _) = (_, _) |- _ => injection H; clear H; intros; subst
  | H : Err = Ok _ |- _ => discriminate H
  | H : Panic = Ok _ |- _ => discriminate H
  | H : bind ?x _ = Ok _ |- _ => destruct x eqn:?; cbn [bind] in H
  | p : (_ * _)%type |- _ => destruct p
  end; cbn [fst snd] in *.

Lemma same_ratio s now s1 rt : ratio_down s now = Ok (s1, rt) -> same s s1.
Proof. intro H. destruct (ratio_down_eff _ _ _ _ H) as (st & v & ->). sref. Qed.
Lemma same_resend ex s now s1 o : poll_resend ex s now = Ok (s1, o) -> same s s1.
Proof.
  unfold poll_resend. intro H. destruct (x_cap s) as [c|].
  - destruct (ratio_down s now) as [[s0 rt]| |] eqn:E; cbn [bind] in H; try discriminate. apply same_ratio in E.
    eapply same_trans; [exact E|]. clear E.
    destruct (ex c _ _); [inv_res; sref|].
    destruct (next_resend _ _) as [[r q]| |]; cbn [bind] in H; try discriminate. destruct q; [|inv_res; sref].
    destruct (get_by_seq _ _); [|discriminate]. inv_res. sref.
  - cbn [bind] in H. destruct (next_resend _ _) as [[r q]| |]; cbn [bind] in H; try discriminate. destruct q; [|inv_res; sref].
    destruct (get_by_seq _ _); [|discriminate]. inv_res. sref.
Qed.
Lemma same_padding s s1 o : poll_padding s = Ok (s1, o) -> same s s1.
Proof.
  unfold poll_padding. intro H. destruct (negb _); [inv_res; sref|]. destruct (x_padding s =? 0); [inv_res; sref|].
  destruct (if _ <? _ then _ else _) as [[p|]| |]; cbn [bind] in H; try discriminate; [inv_res; sref|].
  destruct (x_pt_pad s); [|discriminate]. inv_res. sref.
Qed.
Lemma same_choose ex s now s1 o : choose ex s now = Ok (s1, o) -> same s s1.
Proof.
  unfold choose. intro H. destruct (poll_resend ex s now) as [[s0 r]| |] eqn:E; cbn [bind] in H; try discriminate.
  apply same_resend in E. eapply same_trans; [exact E|]. destruct r; [inv_res; sref|].
  unfold poll_regular in H. destruct (sq_peek _); [inv_res; sref|].
  destruct (poll_padding s0) as [[s3 r3]| |] eqn:E3; cbn [bind] in H; try discriminate. inv_res. exact (same_padding _ _ _ E3).
Qed.
Lemma same_put s k p : same s (put_back s k p).
Proof. destruct k; cbn [put_back]; try sref. destruct (queue _) as [|[? ?] ?]; sref. Qed.
Lemma same_sent s n now pr pt s1 : sent s n now pr pt = Ok s1 -> same s s1.
Proof.
  unfold sent. intro H. destruct (n_kind n); try (inv_res; sref).
  destruct (sq_pop _ _) as [[q o]| |]; cbn [bind] in H; try discriminate. destruct o; [|discriminate].
  destruct (k_nack _); [|inv_res; sref]. destruct (cache_sent _ _ _); cbn [bind] in H; try discriminate. inv_res. sref.
Qed.
Lemma same_poll ex s now m t ps s1 t1 o : poll_packet ex s now m t ps = Ok (s1, t1, o) -> same s s1.
Proof.
  unfold poll_packet. intro H. destruct (choose ex s now) as [[s0 r]| |] eqn:E; cbn [bind] in H; try discriminate.
  apply same_choose in E. eapply same_trans; [exact E|]. clear E. destruct r as [[n pad]|]; [|inv_res; sref].
  cbv zeta in H. destruct (find _ ps) as [pr|].
  - destruct (prep _ _ _ _) as [[p2 h]| |]; cbn [bind] in H; try discriminate.
    destruct (wire _ _ _ _) as [[[[b sz] hl]|]| |]; cbn [bind] in H; try discriminate; [|inv_res; apply same_put].
    destruct (sent _ _ _ _ _) eqn:E; cbn [bind] in H; try discriminate. inv_res. eapply same_trans; [apply same_put|exact (same_sent _ _ _ _ _ _ E)].
  - remember (put_back _ _ _) as s2 eqn:E2. assert (same s0 s2) as S2 by (subst s2; apply same_put).
    eapply same_trans; [exact S2|]. destruct (n_kind n); try (inv_res; sref). 
Qed.
Lemma step_same ex al ps s tw o s' tw' y : steady ps o -> match o with XWrite _ | XNextSeq => False | _ => True end ->
  txstep ex al s tw o = Ok (s', tw', y) -> same s s'.
Proof.
  intros ST N H. destruct o as [w|now au c f|now m en ps'|now f|n|now|now| | | |mx ag cap|b| |ns nr q1 q2]; cbn [steady] in ST; try contradiction; cbn [txstep] in H.
  - unfold tx_timeout in H. destruct (x_audio s); (destruct (sq_timeout _ _); cbn [bind] in H; try discriminate; inv_res; sref).
  - destruct (poll_packet _ _ _ _ _ _) as [[[s0 t0] p]| |] eqn:E; cbn [bind] in H; try discriminate. inv_res. exact (same_poll _ _ _ _ _ _ _ _ _ E).
  - inv_res. destruct f; cbn [handle_rtcp]; try sref; [destruct (x_rtx s); [|]; destruct (_ =? _); sref|].
    unfold handle_nack. destruct (last_cached _); sref.
  - inv_res. unfold generate_padding. destruct (padding_enabled s); sref.
  - unfold queue_state in H. destruct (sq_snapshot _ _) as [[q sn]| |]; cbn [bind] in H; try discriminate. inv_res. sref.
  - unfold create_sr in H. destruct (current_rtp_time s now); cbn [bind] in H; try discriminate. inv_res. sref.
  - inv_res. sref.
  - inv_res. sref.
  - inv_res. sref.
Qed.

(** * other streams count packets too *)
Definition with_tw (a : spec) (tw : Z) : spec :=
  mkSp (a_ssrc a) (a_rtx a) (a_mid a) (a_rid a) (a_acked a) (a_queue a) (a_sent a) (a_asked a) (a_next a) (a_pad a) tw.
Lemma R_jump s tw a tw' : R s tw a -> R s tw' (with_tw a tw').
Proof. intros []. constructor; try assumption. reflexivity. Qed.
Lemma R_seq s tw a n : R s tw a -> R (set_seq s n) tw a.
Proof. intros []. constructor; assumption. Qed.

(** * one step *)
Section F.
Variables (ss rs : Z) (ps : list param).
Hypothesis NE : rs <> ss.

Lemma step_media_all a o y a' : Id ss rs a -> steady ps o -> op_ok o -> match o with XWrite _ => False | _ => True end -> sstep a o y a' ->
  filter (on_ssrc ss) (packets [y]) = [] /\ map fst (a_queue a') = map fst (a_queue a) \/
  exists w q, a_queue a = (w, true) :: q /\ a_queue a' = q /\
    (sendable ps w = false \/
     exists p, filter (on_ssrc ss) (packets [y]) = [p] /\ carries_all p w).
Proof.
  intros HI ST OK NW S.
  inversion S as [w0 K1 K2|w0 K1 K2|now m en ps' y' a1 P| | | | | | | |? ? K1 K2]; subst; cbn [steady] in ST; try contradiction;
    try (left; split; [reflexivity|cbn [after a_queue]; rewrite ?map_map; reflexivity]).
  - subst ps'. inversion P as [w q hb bd asked E KN SA tw HW BO|w rpt rs' n asked hb bd IN NK RP ER NX SA tw HW BO
    |w rpt rs' n asked hb bd IN NK RP ER NX SA P50 NQ tw HW BO|pt rpt rs' n asked hb len k RP ER NX SA P0 E1 E2 E3 NQ tw HW
    |w q asked E KN SA|asked nx pad _ _ _ _]; subst.
    + right. exists w, q. split; [exact E|]. split; [reflexivity|]. right.
      eexists. split; [cbn [packets flat_map app filter]; unfold on_ssrc; cbn [snd rc_hdr main_header ssrc]|].
      * destruct HI as (-> & _). rewrite Z.eqb_refl. reflexivity.
      * split; [|cbn [snd rc_hdr main_header ext_vals]; unfold common; cbn [ev_ids]; repeat split; cbn; reflexivity].
        split; [reflexivity|]. split; [|reflexivity]. unfold payload_of. cbn [snd fst rc_hdr main_header header_len]. rewrite skip_header by reflexivity. exact BO.
    + left. destruct HI as (_ & HI & _). specialize (HI _ ER). split; [|reflexivity].
      cbn [packets flat_map app filter]. unfold on_ssrc. cbn [snd rc_hdr rtx_header ssrc]. replace (rs' =? ss) with false by lia. reflexivity.
    + left. destruct HI as (_ & HI & _). specialize (HI _ ER). split; [|reflexivity].
      cbn [packets flat_map app filter]. unfold on_ssrc. cbn [snd rc_hdr rtx_header ssrc]. replace (rs' =? ss) with false by lia. reflexivity.
    + left. destruct HI as (_ & HI & _). specialize (HI _ ER). split; [|reflexivity].
      cbn [packets flat_map app filter]. unfold on_ssrc. cbn [snd rc_hdr blank_header ssrc]. replace (rs' =? ss) with false by lia. reflexivity.
    + right. exists w, q. split; [exact E|]. split; [reflexivity|]. left.
      destruct (sendable ps w) eqn:Q; [|reflexivity]. apply sendable_known in Q. contradiction.
    + left. split; reflexivity.
  - left. destruct o; try contradiction; (split; [destruct y; [reflexivity|contradiction|reflexivity..]|reflexivity]).
Qed.

(** The stream [x], which has been given the packets [W] by payloading and has sent [O]. *)
Record SI (m : list Z) (r : option (list Z)) (q0 : Z) (x : tx) (tw : Z) (W : list rtpwrite) (O : list (list Z * receipt)) (closed : bool) : Prop := {
  si_mid : x_mid x = m; si_rid : x_rid x = r; si_q0 : 0 <= q0;
  si_seq : x_seq x = q0 + zlen W;
  si_send : Forall (fun w => sendable ps w = true) W;
  si_run : exists a ws rest, R x tw a /\ Id ss rs a /\ Forall2 carries_all (filter (on_ssrc ss) O) ws /\
             W = ws ++ map fst (a_queue a) ++ rest /\ (closed = false -> rest = []) /\ (closed = true -> a_queue a = []) }.

Lemma SI_jump m r q0 x tw W O cl tw' : SI m r q0 x tw W O cl -> SI m r q0 x tw' W O cl.
Proof.
  intros [A B C D E (a & ws & rest & F & G & H)]. constructor; try assumption. exists (with_tw a tw'), ws, rest.
  split; [exact (R_jump _ _ _ _ F)|]. split; [exact G|exact H].
Qed.
Lemma SI_step ex al m r q0 x tw W O cl o x' tw' y : SI m r q0 x tw W O cl -> steady ps o -> op_ok o ->
  match o with XWrite _ | XNextSeq => False | _ => True end ->
  txstep ex al x tw o = Ok (x', tw', y) -> SI m r q0 x' tw' W (O ++ packets [y]) cl.
Proof.
  intros [A B C D E (a & ws & rest & F & G & H & I & J & K)] ST OK N T.
  destruct (step_same _ _ _ _ _ _ _ _ _ ST N T) as (S1 & S2 & S3).
  destruct (step_ok _ _ _ _ _ _ _ _ _ F OK T) as (a' & S & HR).
  assert (match o with XWrite _ => False | _ => True end) as N' by (destruct o; try exact Logic.I; exact N).
  pose proof (id_step ss rs ps NE _ _ _ _ G ST OK S) as G'.
  constructor; try congruence; try assumption. rewrite filter_app.
  destruct (step_media_all _ _ _ _ G ST OK N' S) as [(E1 & E2)|(w & q & E1 & E2 & Q)].
  - exists a', ws, rest. rewrite E1, app_nil_r, E2. split; [exact HR|]. split; [exact G'|]. split; [exact H|]. split; [exact I|]. split; [exact J|].
    intro X. specialize (K X). rewrite K in E2. destruct (a_queue a'); [reflexivity|discriminate].
  - assert (sendable ps w = true) as SW.
    { rewrite I, E1 in E. apply Forall_app in E as [_ E]. inversion E; assumption. }
    destruct Q as [Q|(p & Q1 & Q2)]; [congruence|].
    exists a', (ws ++ [w]), rest. rewrite Q1, E2. split; [exact HR|]. split; [exact G'|]. split; [apply Forall2_app; [exact H|constructor; [exact Q2|constructor]]|].
    split; [rewrite I, E1; cbn [map fst app]; rewrite <- app_assoc; reflexivity|]. split; [exact J|].
    intro X. specialize (K X). congruence.
Qed.
Lemma SI_push m r q0 x tw W O w : SI m r q0 x tw W O false -> w_seq w = x_seq x -> w_seq w < U64 -> sendable ps w = true ->
  SI m r q0 (write_rtp (set_seq x (x_seq x + 1)) w) tw (W ++ [w]) O false.
Proof.
  intros [A B C D E (a & ws & rest & F & G & H & I & J & K)] QS QB SW.
  assert (op_ok (XWrite w)) as OK by (cbn [op_ok]; pose proof (zlen_nonneg W); lia).
  destruct (step_ok (fun _ _ _ => false) 0 _ _ _ (XWrite w) _ _ _ (R_seq _ _ _ (x_seq x + 1) F) OK eq_refl) as (a' & S & HR).
  assert (a' = after a (a_queue a ++ [(w, false)]) (a_sent a) (a_asked a) (a_next a) (a_pad a) (a_twcc a)) as -> by (inversion S; [reflexivity|contradiction]).
  constructor; try assumption.
  - cbn [write_rtp set_q set_wall set_seq x_seq]. rewrite zlen_app, zlen_cons, zlen_nil. lia.
  - apply Forall_app. split; [exact E|]. constructor; [exact SW|constructor].
  - eexists _, ws, []. split; [exact HR|]. split; [exact G|]. split; [exact H|].
    split; [rewrite (J eq_refl), app_nil_r in I; rewrite I; cbn [after a_queue]; rewrite map_app, app_nil_r, <- app_assoc; reflexivity|].
    split; [reflexivity|discriminate].
Qed.
Lemma SI_close m r q0 x tw W O al : SI m r q0 x tw W O false -> SI m r q0 (reset_buffers x al) tw W O true.
Proof.
  intros [A B C D E (a & ws & rest & F & G & H & I & J & K)].
  destruct (step_ok (fun _ _ _ => false) al _ _ _ XReset _ _ _ F Logic.I eq_refl) as (a' & S & HR).
  assert (a' = after a [] [] [] (a_next a) 0 (a_twcc a)) as -> by (inversion S; [reflexivity|contradiction]).
  constructor; try assumption. eexists _, ws, (map fst (a_queue a)). split; [exact HR|].
  split; [destruct G as (G1 & G2 & G3); split; [exact G1|]; split; [exact G2|cbn; lia]|]. split; [exact H|].
  split; [rewrite I, (J eq_refl), app_nil_r; reflexivity|]. split; [discriminate|reflexivity].
Qed.
End F.

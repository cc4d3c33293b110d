(** Feedback, from the session's queue to the peer. *)
From Coq Require Import Permutation.
From Verif Require Import Base BaseFacts RtcpModel RtcpSpec RtcpPackProofs RtcpPackProps SrtpModel SrtpSpec SeqModel MtimeModel ExtModel HeaderModel
  TxModel WrModel SesModel SesSpec SesProofs2 SesProofs4.

Lemma pushed_app a b : pushed (a ++ b) = pushed a ++ pushed b. Proof. apply flat_map_app. Qed.
Lemma peer_reads_keys Q c c' xs : same_keys c c' -> forall i outs, peer_reads Q c' i xs outs -> peer_reads Q c i xs outs.
Proof.
  intros [K1 K2]. induction xs as [|x xs IH]; intros i [|out outs]; cbn [peer_reads]; try tauto.
  intros [(b & (sc & c2 & P) & R) H]. split; [|apply IH, H]. exists b. split; [|exact R]. exists sc, c2. rewrite <- K1, <- K2. exact P.
Qed.
Lemma peer_reads_mod Q c xs : forall i j outs, i mod 2 ^ 31 = j mod 2 ^ 31 -> peer_reads Q c i xs outs -> peer_reads Q c j xs outs.
Proof.
  induction xs as [|x xs IH]; intros i j [|out outs] E; cbn [peer_reads]; try tauto.
  intros [(b & P & R) H]. split; [exists b; rewrite <- E; split; assumption|]. eapply IH; [|exact H].
  rewrite <- (Zplus_mod_idemp_l i), <- (Zplus_mod_idemp_l j), E. reflexivity.
Qed.

Lemma poll_queue Q mtu (MT : 20 <= mtu <= 65536) c q o rest c' : Forall sound q -> SrtpModel.poll_feedback Q c mtu q = Ok (o, rest, c') ->
  Forall sound rest /\ same_keys c c' /\
  (Forall (fun p => 4 * words p <= (mtu - 20) / 4 * 4) q -> Forall (fun p => 4 * words p <= (mtu - 20) / 4 * 4) rest /\ (rest = [] \/ (length rest < length q)%nat)) /\
  exists out, Permutation (flat_map items q) (flat_map items out ++ flat_map items rest) /\
  match o with
  | Some x => exists b, protect_rtcp Q c b = Ok (x, c') /\ read_packet b = Ok (map as_read out)
  | None => out = [] /\ c' = c
  end.
Proof.
  intros S. destruct q as [|p q]; cbn [SrtpModel.poll_feedback].
  { intros [= <- <- <-]. split; [constructor|]. split; [split; reflexivity|]. split; [auto|]. exists []. split; [constructor|auto]. }
  destruct (mtu <? 20); [discriminate|].
  destruct (write_packet (p :: q) ((mtu - 20) / 4 * 4)) as [[[bs out] rest']| |] eqn:W; cbn [bind]; try discriminate.
  assert (0 <= (mtu - 20) / 4 * 4 <= 4 * U16) as T by (unfold U16; dlia).
  destruct (write_packet_keeps _ _ _ _ _ S T W) as (S1 & S2 & S3 & S4 & _). pose proof (write_packet_progress _ _ _ _ _ S T W) as PR.
  destruct (zlen bs =? 0) eqn:EZ.
  - intros [= <- <- <-]. split; [exact S1|]. split; [split; reflexivity|]. split; [exact PR|]. exists []. split; [|auto].
    assert (out = []) as ->; [|exact S4]. assert (bs = []) as -> by (destruct bs; [reflexivity|rewrite zlen_cons in EZ; pose proof (zlen_nonneg bs); lia]).
    cbn in S3. injection S3 as S3. destruct out; [reflexivity|discriminate].
  - destruct (protect_rtcp Q c bs) as [[x c2]| |] eqn:EP; cbn [bind]; try discriminate. destruct (zlen x <? mtu); [|discriminate]. intros [= <- <- <-].
    split; [exact S1|]. split. { pose proof (protect_rtcp_ctx _ _ _ _ _ EP) as ->. split; reflexivity. }
    split; [exact PR|]. exists out. split; [exact S4|]. exists bs. auto.
Qed.

Section M.
Context {P : Type} (fresh : codec -> P) (cut : P -> Z -> list Z -> P * option (list (list Z))).
Variables (Q : prims) (ex : Z -> Z -> Z -> bool) (al : Z) (ps : list wparam) (mtu : Z).
Hypothesis MT : 20 <= mtu <= 65536.
Local Notation ses_step := (SesModel.ses_step P fresh cut Q ex al ps mtu).
Local Notation ses_run := (SesModel.ses_run P fresh cut Q ex al ps mtu).

Definition idle_ctx (c c' : ctx) (out : list rtcp) : Prop := out = [] /\ c_index c' = c_index c.
Lemma step_feedback s o s1 d h1 c : ses_step s o = Ok (s1, d, h1) -> s_ctx s = Some c -> keeps_feedback o ->
  Forall sound (s_fb s ++ pushed [o]) ->
  exists c', s_ctx s1 = Some c' /\ same_keys c c' /\ Forall sound (s_fb s1) /\
    exists out, Permutation (flat_map items (s_fb s ++ pushed [o])) (flat_map items out ++ flat_map items (s_fb s1)) /\
    match d with
    | Some (DRtcp x) => exists b, protect_rtcp Q c b = Ok (x, c') /\ read_packet b = Ok (map as_read out)
    | _ => idle_ctx c c' out
    end.
Proof.
  intros H EC KF S. destruct o as [o|f b| |c1|now pick m en|]; cbn [SesModel.ses_step] in H; try contradiction.
  - destruct (wstep P fresh cut ex al ps mtu (s_wr s) o) as [[w y]| |] eqn:E; cbn [bind fst snd] in H; try discriminate. injection H as <- <- <-.
    cbn [pushed flat_map s_fb s_ctx] in *. rewrite app_nil_r in *. exists c. split; [exact EC|]. split; [split; reflexivity|]. split; [exact S|]. exists []. split; [apply Permutation_refl|split; reflexivity].
  - injection H as <- <- <-. cbn [pushed flat_map s_fb s_ctx] in *. rewrite app_nil_r in *. exists c. split; [exact EC|]. split; [split; reflexivity|].
    assert (Permutation (s_fb s ++ f ++ b) (f ++ s_fb s ++ b)) as PM by apply Permutation_app_swap_app.
    split; [eapply Permutation_Forall; [exact PM|exact S]|]. exists []. split; [apply Permutation_flat_map, PM|split; reflexivity].
  - cbn [pushed flat_map app] in *. rewrite app_nil_r in *. unfold SesModel.poll in H.
    destruct (now =? al); [injection H as <- <- <-; exists c; split; [exact EC|]; split; [split; reflexivity|]; split; [exact S|]; exists []; split; [apply Permutation_refl|split; reflexivity]|].
    unfold SesModel.feedback in H. rewrite EC in H. destruct (SrtpModel.poll_feedback Q c mtu (s_fb s)) as [[[o rest] c']| |] eqn:EF; cbn [bind] in H; try discriminate.
    destruct (poll_queue Q mtu MT _ _ _ _ _ S EF) as (S1 & SK & _ & out & PM & X). destruct o as [x|]; cbn [option_map] in H.
    { injection H as <- <- <-. exists c'. cbn [s_ctx s_fb]. split; [reflexivity|]. split; [exact SK|]. split; [exact S1|]. exists out. split; [exact PM|exact X]. }
    destruct X as [-> ->]. cbn [s_wr] in H. destruct (w_closing (s_wr s)); [injection H as <- <- <-; exists c; split; [reflexivity|]; split; [split; reflexivity|]; split; [exact S1|]; exists []; split; [exact PM|split; reflexivity]|].
    unfold SesModel.packet in H. cbn [s_ctx s_wr s_fb] in H.
    destruct pick as [k|]; [|injection H as <- <- <-; exists c; split; [reflexivity|]; split; [split; reflexivity|]; split; [exact S1|]; exists []; split; [exact PM|split; reflexivity]].
    destruct (wstep P fresh cut ex al ps mtu (s_wr s) _) as [[w y]| |]; cbn [bind] in H; try discriminate.
    assert (exists dd, Ok (mkSes w (Some c) rest, dd, [(WStream k (XPoll now m en (map wp_par ps)), y)]) = Ok (s1, d, h1) /\ match dd with Some (DRtcp _) => False | _ => True end) as (dd & HD & ND).
    { destruct y as [r|a e|[|b rc|q|sr|n|kf|rb]|]; try (eexists; split; [exact H|exact I]).
      destruct (protect_rtp Q c b (rc_hdr rc) (rc_seq rc)) as [dd| |] eqn:EP; cbn [bind] in H; try discriminate. eexists; split; [exact H|exact I]. }
    injection HD as <- <- <-. cbn [s_ctx s_fb]. exists c. split; [reflexivity|]. split; [split; reflexivity|]. split; [exact S1|]. exists []. split; [exact PM|].
    destruct dd as [[x|x]|]; try contradiction; split; reflexivity.
Qed.

Lemma run_feedback ops : forall s s1 ds h c, ses_run s ops = Ok (s1, ds, h) -> s_ctx s = Some c -> 0 <= c_index c < 2 ^ 31 -> Forall keeps_feedback ops ->
  Forall sound (s_fb s ++ pushed ops) ->
  Forall sound (s_fb s1) /\ exists outs, peer_reads Q c (c_index c) (rtcps ds) outs /\
    Permutation (flat_map items (s_fb s ++ pushed ops)) (flat_map items (concat outs) ++ flat_map items (s_fb s1)).
Proof.
  induction ops as [|o ops IH]; intros s s1 ds h c H EC CI KF S; cbn [SesModel.ses_run] in H.
  { injection H as <- <- <-. cbn [pushed flat_map] in *. rewrite app_nil_r in *. split; [exact S|]. exists []. split; [exact I|apply Permutation_refl]. }
  destruct (ses_step s o) as [[[s2 d] h1]| |] eqn:E; cbn [bind] in H; try discriminate. destruct (ses_run s2 ops) as [[[s3 d3] h3]| |] eqn:E2; cbn [bind] in H; try discriminate.
  injection H as <- <- <-. inversion KF; subst. change (o :: ops) with ([o] ++ ops) in *. rewrite pushed_app, app_assoc in S |- *. apply Forall_app in S as [S1 S2].
  destruct (step_feedback _ _ _ _ _ _ E EC ltac:(assumption) S1) as (c' & EC' & SK & S3 & out & PM & X).
  assert (0 <= c_index c' < 2 ^ 31 /\ (peer_reads Q c' (c_index c') (rtcps d3) = peer_reads Q c' (c_index c') (rtcps d3))) as [CI' _].
  { split; [|reflexivity]. destruct d as [[x|x]|]; [destruct X as [_ X]; lia| |destruct X as [_ X]; lia].
    destruct X as (b & PR & _). pose proof (protect_rtcp_ctx _ _ _ _ _ PR) as ->. cbn [c_index]. apply Z.mod_pos_bound. lia. }
  destruct (IH _ _ _ _ _ E2 EC' CI' ltac:(assumption) (proj2 (Forall_app _ _ _) (conj S3 S2))) as (S4 & outs & PR & PM2).
  split; [exact S4|]. change (match d with Some d0 => [d0] | None => [] end) with (one d). rewrite rtcps_app.
  assert (Permutation (flat_map items ((s_fb s ++ pushed [o]) ++ pushed ops)) (flat_map items (out ++ concat outs) ++ flat_map items (s_fb s3))) as PM3.
  { rewrite (flat_map_app items (s_fb s ++ pushed [o])), (flat_map_app items out). eapply Permutation_trans; [apply Permutation_app_tail, PM|]. rewrite <- !app_assoc. apply Permutation_app_head. rewrite (flat_map_app items (s_fb s2)) in PM2. exact PM2. }
  destruct d as [[x|x]|]; cbn [one rtcps flat_map app].
  - destruct X as [-> X]. exists outs. rewrite X in PR. split; [eapply peer_reads_keys; eassumption|exact PM3].
  - destruct X as (b & PR1 & RD). exists (out :: outs). split; [|exact PM3]. cbn [peer_reads]. split.
    + exists b. split; [|exact RD]. exists (c_scratch c), c'. rewrite Z.mod_small by exact CI. destruct c; exact PR1.
    + eapply peer_reads_keys; [exact SK|]. pose proof (protect_rtcp_ctx _ _ _ _ _ PR1) as EQ. rewrite EQ in PR at 2. cbn [c_index] in PR.
      eapply peer_reads_mod; [|exact PR]. change 2147483648 with (2 ^ 31). apply Z.mod_mod. lia.
  - destruct X as [-> X]. exists outs. rewrite X in PR. split; [eapply peer_reads_keys; eassumption|exact PM3].
Qed.
End M.

(** * Lists of goodbyes *)
Definition good (l : list Z) : Prop := l <> [] /\ (length l <= 31)%nat.
Lemma chunk_spec l : forall i cur res, 0 <= i -> (i = 0 /\ cur = [] \/ 0 < i /\ zlen cur = (i - 1) mod 31 + 1) ->
  concat (chunk l i cur res) = concat res ++ cur ++ l /\ (Forall good res -> Forall good (chunk l i cur res)) /\
  (length (chunk l i cur res) <= length res + length cur + length l)%nat.
Proof.
  induction l as [|x l IH]; intros i cur res Hi HC; cbn [chunk].
  - destruct cur as [|y cur].
    + rewrite !app_nil_r. split; [reflexivity|]. split; [auto|]. cbn [length]. lia.
    + rewrite concat_app. cbn [concat]. rewrite !app_nil_r. split; [reflexivity|]. split; [|rewrite app_length; cbn [length]; lia].
      intro H. apply Forall_app. split; [exact H|]. constructor; [|constructor]. split; [discriminate|]. destruct HC as [[_ HC]|[_ HC]]; [discriminate|].
      pose proof (Z.mod_pos_bound (i - 1) 31 ltac:(lia)). unfold zlen in HC. lia.
  - destruct ((i mod 31 =? 0) && negb (i =? 0)) eqn:B.
    + assert (0 < i /\ zlen cur = 31) as [P L] by (destruct HC as [[HC _]|[HC HL]]; [subst; discriminate B|split; [exact HC|]; dlia]).
      destruct (IH (i + 1) ([] ++ [x]) (res ++ [cur])) as (I1 & I2 & I3); [lia|right; split; [lia|]; change (zlen ([] ++ [x])) with 1; dlia|].
      rewrite I1, concat_app. cbn [concat app]. rewrite app_nil_r, <- !app_assoc. split; [reflexivity|]. split.
      * intro H. apply I2, Forall_app. split; [exact H|]. constructor; [|constructor]. unfold zlen in L. split; [destruct cur; [discriminate|discriminate]|lia].
      * rewrite app_length in I3. cbn [length app] in *. destruct cur; [discriminate|]. cbn [length] in *. lia.
    + destruct (IH (i + 1) (cur ++ [x]) res) as (I1 & I2 & I3); [lia|right; split; [lia|]; rewrite zlen_app; change (zlen [x]) with 1; destruct HC as [[-> ->]|[HC HL]]; [reflexivity|]; dlia|].
      rewrite I1, <- !app_assoc. split; [reflexivity|]. split; [exact I2|]. rewrite app_length in I3. cbn [length] in *. lia.
Qed.
Lemma lists_spec l : concat (lists_from_iter l) = l /\ Forall good (lists_from_iter l) /\ (length (lists_from_iter l) <= length l)%nat.
Proof.
  unfold lists_from_iter. destruct (chunk_spec l 0 [] [] ltac:(lia) ltac:(left; auto)) as (H1 & H2 & H3). split; [exact H1|]. split; [apply H2; constructor|exact H3].
Qed.
Lemma bye_items ls : flat_map items (map Bye ls) = map IBye (concat ls).
Proof. induction ls as [|l ls IH]; [reflexivity|]. cbn [map flat_map concat items]. rewrite IH, map_app. reflexivity. Qed.
Lemma byes_sound ls : Forall good ls -> Forall u32 (concat ls) -> Forall sound (map Bye ls).
Proof.
  induction 1 as [|l ls [N L] _ IH]; intro F; cbn [map]; [constructor|]. cbn [concat] in F. apply Forall_app in F as [F1 F2]. constructor; [|apply IH, F2].
  split; [split; [exact L|exact F1]|]. destruct l; [congruence|intros []].
Qed.

Section N.
Context {P : Type} (fresh : codec -> P) (cut : P -> Z -> list Z -> P * option (list (list Z))).
Variables (Q : prims) (ex : Z -> Z -> Z -> bool) (al : Z) (ps : list wparam) (mtu : Z).
Hypothesis MT : 20 <= mtu <= 65536.
Local Notation ses_step := (SesModel.ses_step P fresh cut Q ex al ps mtu).
Local Notation ses_run := (SesModel.ses_run P fresh cut Q ex al ps mtu).
Definition fits (p : rtcp) : Prop := 4 * words p <= (mtu - 20) / 4 * 4.

(** Closing: each poll makes the queue shorter, and nothing else happens. *)
Lemma step_closing s o s1 d h1 c : ses_step s o = Ok (s1, d, h1) -> polls al o -> s_ctx s = Some c -> w_closing (s_wr s) = true ->
  Forall sound (s_fb s) -> Forall fits (s_fb s) ->
  s_wr s1 = s_wr s /\ h1 = [] /\ (exists c', s_ctx s1 = Some c') /\ Forall sound (s_fb s1) /\ Forall fits (s_fb s1) /\
  (s_fb s1 = [] \/ (length (s_fb s1) < length (s_fb s))%nat) /\ rtps (one d) = [].
Proof.
  intros H PO EC CL S F. destruct o as [| | | |now pick m en|]; cbn [polls] in PO; try contradiction. cbn [SesModel.ses_step] in H. unfold SesModel.poll in H.
  destruct (Z.eqb_spec now al); [contradiction|]. unfold SesModel.feedback in H. rewrite EC in H.
  destruct (SrtpModel.poll_feedback Q c mtu (s_fb s)) as [[[o rest] c']| |] eqn:EF; cbn [bind] in H; try discriminate.
  destruct (poll_queue Q mtu MT _ _ _ _ _ S EF) as (S1 & _ & PR & out & _ & X). destruct (PR F) as [F1 LE]. destruct o as [x|]; cbn [option_map] in H.
  - injection H as <- <- <-. cbn [s_wr s_ctx s_fb]. repeat (split; [first [reflexivity|eauto|assumption]|]). reflexivity.
  - cbn [s_wr] in H. rewrite CL in H. injection H as <- <- <-. cbn [s_wr s_ctx s_fb]. repeat (split; [first [reflexivity|eauto|assumption]|]). reflexivity.
Qed.
Lemma run_closing ops : forall s s1 ds h c, ses_run s ops = Ok (s1, ds, h) -> Forall (polls al) ops -> s_ctx s = Some c -> w_closing (s_wr s) = true ->
  Forall sound (s_fb s) -> Forall fits (s_fb s) ->
  s_wr s1 = s_wr s /\ h = [] /\ rtps ds = [] /\ (s_fb s1 = [] \/ (length (s_fb s1) + length ops <= length (s_fb s))%nat).
Proof.
  induction ops as [|o ops IH]; intros s s1 ds h c H PO EC CL S F; cbn [SesModel.ses_run] in H.
  { injection H as <- <- <-. split; [reflexivity|]. split; [reflexivity|]. split; [reflexivity|]. right. cbn [length]. lia. }
  destruct (ses_step s o) as [[[s2 d] h1]| |] eqn:E; cbn [bind] in H; try discriminate. destruct (ses_run s2 ops) as [[[s3 d3] h3]| |] eqn:E2; cbn [bind] in H; try discriminate.
  injection H as <- <- <-. inversion PO; subst. destruct (step_closing _ _ _ _ _ _ E ltac:(assumption) EC CL S F) as (W & -> & (c' & EC') & S1 & F1 & L & R).
  rewrite <- W in CL. destruct (IH _ _ _ _ _ E2 ltac:(assumption) EC' CL S1 F1) as (W2 & -> & R2 & L2). split; [congruence|]. split; [reflexivity|].
  change (match d with Some d0 => [d0] | None => [] end) with (one d). rewrite rtps_app, R, R2. split; [reflexivity|].
  destruct L2 as [L2|L2]; [left; exact L2|]. destruct L as [L|L].
  - left. destruct (s_fb s3); [reflexivity|]. rewrite L in L2. cbn [length] in L2. lia.
  - right. cbn [length]. lia.
Qed.
(** The SRTCP index counts the datagrams. *)
Lemma run_index ops : forall s s1 ds h c, ses_run s ops = Ok (s1, ds, h) -> s_ctx s = Some c -> 0 <= c_index c < 2 ^ 31 -> Forall quiet_call ops -> Forall keyless ops ->
  exists c', s_ctx s1 = Some c' /\ same_keys c c' /\ c_index c' = (c_index c + zlen (rtcps ds)) mod 2 ^ 31.
Proof.
  induction ops as [|o ops IH]; intros s s1 ds h c H EC CI QC KL; cbn [SesModel.ses_run] in H.
  { injection H as <- <- <-. exists c. split; [exact EC|]. split; [split; reflexivity|]. change (zlen (rtcps [])) with 0. rewrite Z.add_0_r, Z.mod_small by exact CI. reflexivity. }
  destruct (ses_step s o) as [[[s2 d] h1]| |] eqn:E; cbn [bind] in H; try discriminate. destruct (ses_run s2 ops) as [[[s3 d3] h3]| |] eqn:E2; cbn [bind] in H; try discriminate.
  injection H as <- <- <-. inversion QC; subst. inversion KL; subst.
  destruct (step_keyed P fresh cut Q ex al ps mtu _ _ _ _ _ _ E EC ltac:(assumption) ltac:(assumption)) as (c' & EC' & [K1 K2] & _ & D).
  assert (c_index c' = (c_index c + zlen (rtcps (one d))) mod 2 ^ 31) as CI2.
  { destruct d as [[x|x]|]; cbn [one rtcps flat_map app]; [|destruct D as [D _]|]; unfold zlen; cbn [length Z.of_nat Pos.of_succ_nat]; rewrite ?Z.add_0_r.
    - rewrite Z.mod_small; [exact D|exact CI].
    - exact D.
    - rewrite Z.mod_small; [exact D|exact CI]. }
  assert (0 <= c_index c' < 2 ^ 31) as CI' by (rewrite CI2; apply Z.mod_pos_bound; lia).
  destruct (IH _ _ _ _ _ E2 EC' CI' ltac:(assumption) ltac:(assumption)) as (c2 & EC2 & [K3 K4] & X). exists c2. split; [exact EC2|]. split; [split; congruence|].
  change (match d with Some d0 => [d0] | None => [] end) with (one d). rewrite rtcps_app, zlen_app, X, CI2, Zplus_mod_idemp_l. f_equal. lia.
Qed.
End N.

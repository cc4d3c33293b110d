(** A timeout: one sample of every medium becomes the packets of its frame. *)
From Verif Require Import Base BaseFacts SeqModel MtimeModel SendQueueModel EvictModel Vp8Model ExtModel HeaderModel NackModel
  TxModel TxSpec TxProofs TxProofs2 TxProofs3 TxProofs4 WrModel WrSpec WrProofs.

Lemma id_eq_spec a b : reflect (a = b) (id_eq a b).
Proof. unfold id_eq. destruct (list_eq_dec Z.eq_dec a b); constructor; assumption. Qed.
Lemma id_eq_refl a : id_eq a a = true. Proof. destruct (id_eq_spec a a); congruence. Qed.
Lemma rid_eq_spec a b : reflect (a = b) (rid_eq a b).
Proof.
  destruct a as [a|], b as [b|]; cbn [rid_eq]; try (constructor; congruence). destruct (id_eq_spec a b); constructor; congruence.
Qed.
Lemma key_eq_spec a b : reflect (a = b) (key_eq a b).
Proof.
  destruct a as [a1 a2], b as [b1 b2]. unfold key_eq. cbn [fst snd]. destruct (Z.eqb_spec a1 b1); cbn [andb]; [|constructor; congruence].
  destruct (rid_eq_spec a2 b2); constructor; congruence.
Qed.
Lemma nth_upd {A} (l : list A) k v j : nth_error (upd l k v) j = if Nat.eqb j k then (if Nat.ltb k (length l) then Some v else None) else nth_error l j.
Proof.
  revert k j. induction l as [|a l IH]; intros [|k] [|j]; cbn [upd nth_error Nat.eqb length]; try reflexivity.
  - destruct (Nat.eqb j k); reflexivity.
  - rewrite IH. destruct (Nat.eqb j k); [|reflexivity]. reflexivity.
Qed.
Lemma len_upd {A} (l : list A) k v : length (upd l k v) = length l.
Proof. revert k. induction l as [|a l IH]; intros [|k]; cbn [upd length]; auto. Qed.
Lemma find_par_some ps pt p : find_par ps pt = Some p -> In p ps /\ wp_pt p = pt.
Proof.
  induction ps as [|q ps IH]; cbn [find_par]; [discriminate|]. destruct (wp_pt q =? pt) eqn:E; [intros [= ->]; split; [left; reflexivity|lia]|].
  intro H. destruct (IH H). split; [right; assumption|assumption].
Qed.
Lemma find_par_known ps pt : existsb (fun p => wp_pt p =? pt) ps = true -> exists p, find_par ps pt = Some p.
Proof.
  induction ps as [|q ps IH]; cbn [existsb find_par]; [discriminate|]. destruct (wp_pt q =? pt); cbn [orb]; eauto.
Qed.
Lemma find_tx_some xs m r k : find_tx xs m r = Some k -> exists x, nth_error xs k = Some x /\ fits m r x = true.
Proof.
  revert k. induction xs as [|x xs IH]; intros k; cbn [find_tx]; [discriminate|]. destruct (fits m r x) eqn:E.
  { intros [= <-]. exists x. split; [reflexivity|exact E]. }
  destruct (find_tx xs m r) as [j|]; [|discriminate]. intros [= <-]. cbn [nth_error]. auto.
Qed.

(** * one frame *)
Section Push.
Variables (ss rs : Z) (ps : list wparam).
Variables (m : list Z) (r : option (list Z)) (q0 tw : Z) (O : list (list Z * receipt)).
Variables (p : wparam) (audio : bool) (s : sample).
Hypotheses (REAL : real (wp_codec p)) (IN : In p ps) (PT : wp_pt p = m_pt s) (TM : 0 <= numer (m_time s) /\ 0 < denom (m_time s)).

Lemma marker_real last : exists b, is_marker (wp_codec p) last = Ok b /\ (b = true <-> video (wp_codec p) = true /\ last = true).
Proof using REAL.
  clear - REAL. destruct (wp_codec p); cbn in REAL; try contradiction; cbn [is_marker video]; eexists; (split; [reflexivity|]); intuition congruence.
Qed.
Lemma time_wire clk : numer (rebase (m_time s) clk) mod U32 = (numer (m_time s) * clk / denom (m_time s)) mod U32.
Proof.
  unfold rebase. destruct (Z.eqb_spec clk (denom (m_time s))) as [->|N].
  - rewrite Z.div_mul by lia. reflexivity.
  - cbn [numer]. rewrite <- Znumtheory.Zmod_div_mod; [reflexivity| | |exists (2 ^ 32)]; unfold U32, U64; lia.
Qed.

Lemma push_ok n all : n + zlen all <= U64 -> forall cs pre x W,
  all = pre ++ cs -> SI ss rs (map wp_par ps) m r q0 x tw W O false -> x_seq x = n + zlen pre ->
  exists x' ws, push_chunks p audio s (match pre with [] => true | _ => false end) cs x = Ok x' /\
    SI ss rs (map wp_par ps) m r q0 x' tw (W ++ ws) O false /\ length ws = length cs /\
    forall i w, nth_error ws i = Some w -> frame_packet (wp_codec p) (p_clock (wp_par p)) audio s n all (length pre + i) w.
Proof.
  intro FIT. induction cs as [|b cs IH]; intros pre x W EA HS HQ; cbn [push_chunks].
  { exists x, []. rewrite app_nil_r. split; [reflexivity|]. split; [exact HS|]. split; [reflexivity|]. intros [|i] w; discriminate. }
  destruct (marker_real (match cs with [] => true | _ => false end)) as (mk & MK & ML). rewrite MK. cbn [bind].
  match goal with |- context [write_rtp _ ?w] => set (w0 := w) end.
  assert (zlen all = zlen pre + 1 + zlen cs) as ZA by (rewrite EA, zlen_app, zlen_cons; lia).
  pose proof (zlen_nonneg cs) as Zc. pose proof (zlen_nonneg pre) as Zp.
  assert (SI ss rs (map wp_par ps) m r q0 (write_rtp (set_seq x (x_seq x + 1)) w0) tw (W ++ [w0]) O false) as HS1.
  { apply SI_push; [exact HS|reflexivity|unfold w0; cbn [w_seq]; lia|]. unfold sendable. apply existsb_exists. exists (wp_par p).
    split; [apply in_map, IN|]. unfold w0. cbn [w_pt]. unfold wp_pt in PT. lia. }
  destruct (IH (pre ++ [b]) _ _ ltac:(rewrite <- app_assoc; exact EA) HS1) as (x' & ws & P1 & P2 & P3 & P4).
  { rewrite zlen_app, zlen_cons, zlen_nil. cbn [write_rtp set_q set_wall set_seq x_seq]. lia. }
  exists x', (w0 :: ws). split; [destruct pre; exact P1|]. split; [rewrite <- app_assoc in P2; exact P2|]. split; [cbn [length]; lia|].
  intros i w H. destruct i as [|i]; cbn [nth_error] in H.
  - injection H as <-. rewrite Nat.add_0_r. unfold w0.
    assert (Nat.eqb (length pre) 0 = match pre with [] => true | _ => false end) as EF by (destruct pre; reflexivity).
    assert (Nat.eqb (S (length pre)) (length all) = match cs with [] => true | _ => false end) as EL.
    { rewrite EA, app_length. cbn [length]. destruct cs; cbn [length]; [apply Nat.eqb_eq; lia|apply Nat.eqb_neq; lia]. }
    constructor; cbn [w_pay w_seq w_pt w_time w_wall w_marker w_nack w_ext pkt_ext abs_capture_time user audio_level voice_activity
      play_delay_min play_delay_max video_orientation video_content_type video_timing]; try reflexivity.
    + rewrite EA, nth_error_app2, Nat.sub_diag by lia. reflexivity.
    + exact HQ.
    + apply time_wire.
    + assert (S (length pre) = length all <-> (match cs with [] => true | _ => false end) = true) as EM by (rewrite <- EL; symmetry; apply Nat.eqb_eq).
      rewrite EM, <- ML. destruct (wp_codec p); cbn in REAL; try contradiction; cbn [allow_talkspurt video] in *;
        destruct mk, audio, (m_spurt s); cbn [orb andb]; intuition congruence.
    + rewrite EL. destruct cs; repeat split; reflexivity.
    + rewrite EF. destruct pre, (m_vla s); cbn [negb andb]; split; reflexivity.
    + repeat split; reflexivity.
  - replace (length pre + S i)%nat with (length (pre ++ [b]) + i)%nat by (rewrite app_length; cbn [length]; lia).
    exact (P4 _ _ H).
Qed.
End Push.

(** * the streams *)
Lemma frames_app ps kinds k n l1 ws1 l2 ws2 : frames ps kinds k n l1 ws1 -> frames ps kinds k (n + zlen ws1) l2 ws2 ->
  frames ps kinds k n (l1 ++ l2) (ws1 ++ ws2).
Proof.
  intro H. induction H as [n|n m s cs l w1 w2 F H IH|n a l ws N H IH]; intro H2; cbn [app].
  - rewrite zlen_nil, Z.add_0_r in H2. exact H2.
  - rewrite <- app_assoc. apply fr_sent; [exact F|]. apply IH. destruct F as (p & au & _ & _ & _ & L & _).
    assert (zlen w1 = zlen cs) as EL by (unfold zlen; lia). rewrite zlen_app in H2. replace (n + zlen cs + zlen w2) with (n + (zlen w1 + zlen w2)) by lia. exact H2.
  - apply fr_skip; [exact N|]. exact (IH H2).
Qed.
Lemma frames_none ps kinds k n l : (forall m s n' cs, ~ In (Sent m s k n' cs) l) -> frames ps kinds k n l [].
Proof.
  induction l as [|a l IH]; intro H; [constructor|]. apply fr_skip; [intros m s n' cs ->; eapply H; left; reflexivity|].
  apply IH. intros m s n' cs X. eapply H. right. exact X.
Qed.

Definition decls := list (Z * option Z * list Z * option (list Z) * Z).
Definition SSI (ps : list wparam) (kinds : list (list Z * bool)) (decl : decls) (xs : list tx) (tw : Z) (A : list act)
    (Of : nat -> list (list Z * receipt)) (cl : bool) : Prop :=
  length xs = length decl /\
  forall k ss rtx m r q0, nth_error decl k = Some (ss, rtx, m, r, q0) ->
    exists x rs W, nth_error xs k = Some x /\ rs <> ss /\ SI ss rs (map wp_par ps) m r q0 x tw W (Of k) cl /\
      frames ps kinds k q0 A W.
Lemma SSI_at ps kinds decl xs tw A Of cl k x : SSI ps kinds decl xs tw A Of cl -> nth_error xs k = Some x ->
  exists ss rtx m r q0 rs W, nth_error decl k = Some (ss, rtx, m, r, q0) /\ rs <> ss /\
    SI ss rs (map wp_par ps) m r q0 x tw W (Of k) cl /\ frames ps kinds k q0 A W.
Proof.
  intros [L H] E. assert (k < length decl)%nat as LK by (rewrite <- L; apply nth_error_Some; congruence).
  destruct (nth_error decl k) as [[[[[ss rtx] m] r] q0]|] eqn:D; [|apply nth_error_None in D; lia].
  destruct (H _ _ _ _ _ _ D) as (x0 & rs & W & E0 & NE & S & F). rewrite E in E0. injection E0 as <-.
  exists ss, rtx, m, r, q0, rs, W. auto.
Qed.

Section M.
Variables (P : Type) (fresh : codec -> P) (cut : P -> Z -> list Z -> P * option (list (list Z))).
Variables (ps : list wparam) (kinds : list (list Z * bool)) (decl : decls) (mtu tw : Z) (Of : nat -> list (list Z * receipt)).
Hypotheses (REAL : Forall (fun p => real (wp_codec p)) ps) (MTU : 16 <= mtu).
Notation pay_media := (pay_media P fresh cut). Notation pay_all := (pay_all P fresh cut).

(** A sample that waits was checked when it was written. *)
Definition checked (s : sample) : Prop :=
  existsb (fun p => wp_pt p =? m_pt s) ps = true /\ 0 <= numer (m_time s) /\ 0 < denom (m_time s).

Lemma pay_media_total d xs : Forall checked (d_wait d) -> exists d' xs' a e, pay_media ps mtu d xs = Ok (d', xs', a, e).
Proof.
  intros HC. unfold WrModel.pay_media. destruct (d_wait d) as [|s rest]; [eauto|].
  inversion HC as [|? ? (K1 & K2 & K3) _]; subst. cbn [set_wait d_mid d_audio d_pay].
  destruct (find_tx xs (d_mid d) (m_rid s)) as [k|] eqn:FT; [|eauto].
  destruct (find_tx_some _ _ _ _ FT) as (x & NX & FX). destruct (find_par_known _ _ K1) as (p & FP).
  destruct (find_par_some _ _ _ FP) as [IN PT]. assert (real (wp_codec p)) as RC by (rewrite Forall_forall in REAL; auto).
  rewrite FP, NX. assert (can_start (wp_codec p) = true) as CS by (destruct (wp_codec p); cbn in RC; try contradiction; reflexivity). rewrite CS.
  set (st := match get_pay P (d_pay d) (m_pt s, m_rid s) with Some st => Ok st | None => Ok (fresh (wp_codec p)) end).
  assert (exists st0, st = Ok st0) as [st0 ES] by (unfold st; destruct (get_pay _ _ _); eauto). rewrite ES. cbn [bind].
  replace (mtu <? 16) with false by lia. destruct (cut st0 (align mtu) (m_data s)) as [st' [cs|]]; [|eauto].
  enough (forall f au x0, exists x', push_chunks p au s f cs x0 = Ok x') as X by (destruct (X true (d_audio (set_pay P (set_wait P d rest) (put_pay P (d_pay d) (m_pt s, m_rid s) st'))) x) as [x' ->]; cbn [bind]; eauto).
  clear - RC. intros f au. revert f. induction cs as [|b cs IH]; intros f x; cbn [push_chunks]; [eauto|].
  destruct (marker_real p RC (match cs with [] => true | _ => false end)) as (mk & -> & _). cbn [bind]. apply IH.
Qed.

(** What [pay_media] did, when its stream numbers fit. *)
Lemma pay_media_ok d xs A : SSI ps kinds decl xs tw A Of false -> In (d_mid d, d_audio d) kinds -> Forall checked (d_wait d) ->
  (exists d' xs' a e, pay_media ps mtu d xs = Ok (d', xs', a, e)) /\
  forall d' xs' a e, pay_media ps mtu d xs = Ok (d', xs', a, e) -> Forall numbers_fit a -> SSI ps kinds decl xs' tw (A ++ a) Of false.
Proof.
  intros HS HK HC. unfold WrModel.pay_media. destruct (d_wait d) as [|s rest]; [split; [eauto|]; intros ? ? ? ? [= <- <- <- <-] _; rewrite app_nil_r; exact HS|].
  inversion HC as [|? ? (K1 & K2 & K3) _]; subst.
  assert (forall a, (forall m s k n cs, a <> Sent m s k n cs) -> SSI ps kinds decl xs tw (A ++ [a]) Of false) as SKIP.
  { intros a Ha. destruct HS as [L H]. split; [exact L|]. intros k ss rtx m r q0 D. destruct (H _ _ _ _ _ _ D) as (x & rs & W & E & NE & S & F).
    exists x, rs, W. split; [exact E|]. split; [exact NE|]. split; [exact S|]. rewrite <- (app_nil_r W).
    apply frames_app; [exact F|]. apply fr_skip; [intros; apply Ha|constructor]. }
  destruct (find_tx xs (d_mid d) (m_rid s)) as [k|] eqn:FT.
  2:{ cbn [set_wait d_mid]. rewrite FT. split; [eauto|]. intros ? ? ? ? [= <- <- <- <-] _. apply SKIP. discriminate. }
  destruct (find_tx_some _ _ _ _ FT) as (x & NX & FX). destruct (find_par_known _ _ K1) as (p & FP).
  destruct (find_par_some _ _ _ FP) as [IN PT]. assert (real (wp_codec p)) as RC by (rewrite Forall_forall in REAL; auto).
  cbn [set_wait d_mid d_audio d_pay]. rewrite FT, FP, NX.
  assert (can_start (wp_codec p) = true) as CS by (destruct (wp_codec p); cbn in RC; try contradiction; reflexivity).
  rewrite CS.
  set (st := match get_pay P (d_pay d) (m_pt s, m_rid s) with Some st => Ok st | None => Ok (fresh (wp_codec p)) end).
  assert (exists st0, st = Ok st0) as [st0 ES] by (unfold st; destruct (get_pay _ _ _); eauto). rewrite ES. cbn [bind]. clear st ES.
  replace (mtu <? 16) with false by lia.
  destruct (cut st0 (align mtu) (m_data s)) as [st' [cs|]].
  2:{ split; [eauto|]. intros ? ? ? ? [= <- <- <- <-] _. apply SKIP. discriminate. }
  cbn [set_pay set_wait d_audio d_mid d_pay d_rids d_wait].
  destruct (SSI_at _ _ _ _ _ _ _ _ _ _ HS NX) as (ss & rtx & m & r & q0 & rs & W & D & NE & SIx & FR).
  split.
  { enough (exists x', push_chunks p (d_audio d) s true cs x = Ok x') as [x' ->] by (cbn [bind]; eauto).
    clear - RC. revert x. generalize true as f. induction cs as [|b cs IH]; intros f x; cbn [push_chunks]; [eauto|].
    destruct (marker_real p RC (match cs with [] => true | _ => false end)) as (mk & -> & _). cbn [bind]. apply IH. }
  intros d' xs' a e H FIT.
  destruct (push_chunks p (d_audio d) s true cs x) as [x'| |] eqn:PC; cbn [bind] in H; try discriminate. injection H as <- <- <- <-.
  inversion FIT as [|? ? NF _]; subst. cbn [numbers_fit] in NF.
  destruct (push_ok ss rs ps m r q0 tw (Of k) p (d_audio d) s RC IN PT (conj K2 K3) (x_seq x) cs NF cs [] x W eq_refl SIx) as (x1 & ws & P1 & P2 & P3 & P4).
  { rewrite zlen_nil. lia. }
  rewrite P1 in PC. injection PC as <-. destruct HS as [L H]. split; [rewrite len_upd; exact L|].
  intros k' ss' rtx' m' r' q0' D'. rewrite nth_upd. destruct (Nat.eqb_spec k' k) as [->|NK].
  - rewrite D in D'. injection D' as <- <- <- <- <-.
    assert (Nat.ltb k (length xs) = true) as -> by (apply Nat.ltb_lt, nth_error_Some; congruence).
    exists x1, rs, (W ++ ws). split; [reflexivity|]. split; [exact NE|]. split; [exact P2|].
    apply frames_app; [exact FR|]. rewrite <- (app_nil_r ws), <- (si_seq _ _ _ _ _ _ _ _ _ _ _ SIx). apply fr_sent; [|constructor].
    exists p, (d_audio d). split; [exact IN|]. split; [exact PT|]. split; [exact HK|]. split; [exact P3|]. exact P4.
  - destruct (H _ _ _ _ _ _ D') as (y & rs' & W' & E & NE' & S & F). exists y, rs', W'. split; [exact E|]. split; [exact NE'|]. split; [exact S|].
    rewrite <- (app_nil_r W'). apply frames_app; [exact F|]. apply fr_skip; [intros ? ? ? ? [= <- <- <- <- <-]; apply NK; reflexivity|constructor].
Qed.

Lemma pay_all_ok ds : forall xs A, SSI ps kinds decl xs tw A Of false -> Forall (fun d => In (d_mid d, d_audio d) kinds /\ Forall checked (d_wait d)) ds ->
  forall ds' xs' a e, pay_all ps mtu ds xs = Ok (ds', xs', a, e) -> Forall numbers_fit a -> SSI ps kinds decl xs' tw (A ++ a) Of false.
Proof.
  induction ds as [|d ds IH]; intros xs A HS HD ds' xs' a e H FIT; cbn [WrModel.pay_all] in H.
  { injection H as <- <- <- <-. rewrite app_nil_r. exact HS. }
  inversion HD as [|? ? [D1 D2] D3]; subst. destruct (pay_media_ok d xs A HS D1 D2) as [_ HM].
  destruct (pay_media ps mtu d xs) as [[[[d1 x1] a1] e1]| |] eqn:E; cbn [bind] in H; try discriminate. specialize (HM _ _ _ _ eq_refl).
  destruct e1 as [e1|].
  - injection H as <- <- <- <-. exact (HM FIT).
  - destruct (pay_all ps mtu ds x1) as [[[[d2 x2] a2] e2]| |] eqn:E2; cbn [bind] in H; try discriminate. injection H as <- <- <- <-.
    apply Forall_app in FIT as [F1 F2]. rewrite app_assoc. eapply IH; [exact (HM F1)|exact D3|exact E2|exact F2].
Qed.
End M.

(** C35: payload type negotiation. *)
From Coq Require Import Permutation.
From Verif Require Import Base BaseFacts PayModel PaySpec PayProofs PayProofs2 PayProofs3 PayProofs4 PayProofs5 PayProofs6.

(** ** Matching *)
(** [CodecConfig::match_params] finds an entry exactly when a compatible one is configured, and what it finds is compatible. *)
Theorem C35_match_exact : forall cfg q,
  match match_params cfg q with
  | Some c => In c cfg /\ compatible (p_spec c) (p_spec q)
  | None => forall c, In c cfg -> ~ compatible (p_spec c) (p_spec q)
  end.
Proof.
  intros cfg q. destruct (match_params cfg q) as [c|] eqn:E; [apply match_ok; exact E|].
  intros c I C. destruct (match_some cfg q c I C) as (d & D). congruence.
Qed.
Print Assumptions C35_match_exact.
(** Both sides agree on what fits. *)
Theorem C35_match_symmetric : forall s t, compatible s t <-> compatible t s.
Proof. intros; split; apply compat_sym. Qed.
Print Assumptions C35_match_symmetric.
(** Each configured entry is paired with at most one remote entry: the last of those with the highest score. *)
Theorem C35_best : forall p remote,
  match best_remote p remote with
  | None => forall r, In r remote -> ~ compatible (p_spec p) (p_spec r)
  | Some r => compatible (p_spec p) (p_spec r) /\
      exists l1 l2, remote = l1 ++ r :: l2 /\
        (forall q, In q l1 -> compatible (p_spec p) (p_spec q) -> okey (score (p_spec p) (p_spec q)) <= okey (score (p_spec p) (p_spec r))) /\
        (forall q, In q l2 -> compatible (p_spec p) (p_spec q) -> okey (score (p_spec p) (p_spec q)) < okey (score (p_spec p) (p_spec r)))
  end.
Proof.
  intros p remote. destruct (best_remote p remote) as [r|] eqn:E; [|apply best_none; exact E].
  pose proof (best_in _ _ _ E) as (I & C). split; [exact C|].
  unfold best_remote, max_by in E. set (k := fun r => okey (score (p_spec p) (p_spec r))) in *.
  set (g := fun r => is_some (score (p_spec p) (p_spec r))) in *.
  destruct (filter g remote) as [|y l] eqn:F; [discriminate|].
  destruct (max_from_last k l y) as (l1 & l2 & A & B & D). assert (R : max_from k y l = r) by congruence. rewrite R in *.
  rewrite A in F. clear E R A C I.
  assert (G : forall q, compatible (p_spec p) (p_spec q) -> g q = true).
  { intros q C. apply score_iff in C. unfold g. destruct (score _ _); [reflexivity|tauto]. }
  revert l1 B F. induction remote as [|x rem IH]; intros l1 B F; cbn [filter] in F; [destruct l1; discriminate|].
  destruct (g x) eqn:Gx.
  - destruct l1 as [|z l1]; cbn [app] in F.
    + assert (x = r) as -> by congruence. assert (F' : filter g rem = l2) by congruence. exists [], rem. split; [reflexivity|].
      split; [intros q []|]. intros q Q C. apply D. rewrite <- F'. apply filter_In. auto.
    + assert (x = z) as -> by congruence. assert (F' : filter g rem = l1 ++ r :: l2) by congruence.
      destruct (IH l1) as (m1 & m2 & E1 & E2 & E3); [intros q Q; apply B; right; exact Q|exact F'|].
      exists (z :: m1), m2. split; [cbn [app]; congruence|]. split; [|exact E3]. intros q [<-|Q] C; [apply B; left; reflexivity|auto].
  - destruct (IH l1 B F) as (m1 & m2 & E1 & E2 & E3). exists (x :: m1), m2. split; [cbn [app]; congruence|]. split; [|exact E3].
    intros q [<-|Q] C; [|auto]. apply G in C. congruence.
Qed.
Print Assumptions C35_best.

(** ** Any history of remote descriptions *)
Fixpoint updates (cfg : list pp) (h : list (list pp * bool)) : res (list pp) :=
  match h with [] => Ok cfg | (remote, rr) :: r => do cfg <- update_params cfg remote rr; updates cfg r end.
(** No two entries ever share a number, whatever the remote side sends. *)
Theorem C35_unique : forall h cfg cfg', updates cfg h = Ok cfg' -> NoDup (numbers cfg) -> NoDup (numbers cfg').
Proof.
  induction h as [|[remote rr] r IH]; intros cfg cfg' E N; cbn [updates] in E; [congruence|].
  destruct (update_params cfg remote rr) as [c| |] eqn:E1; try discriminate. cbn [bind] in E.
  apply update_params_ok in E1 as (N1 & _); [|exact N]. eauto.
Qed.
Print Assumptions C35_unique.
(** Entries keep their place, codec, clock rate and channels; once settled they keep their numbers. *)
Definition follows (p p' : pp) : Prop :=
  s_codec (p_spec p') = s_codec (p_spec p) /\ s_clock (p_spec p') = s_clock (p_spec p) /\ s_channels (p_spec p') = s_channels (p_spec p) /\
  (p_locked p = true -> p_locked p' = true /\ same_numbers p p').
Theorem C35_stable : forall h cfg cfg', updates cfg h = Ok cfg' -> NoDup (numbers cfg) -> Forall2 follows cfg cfg'.
Proof.
  induction h as [|[remote rr] r IH]; intros cfg cfg' E N; cbn [updates] in E.
  - assert (cfg = cfg') as -> by congruence. clear. induction cfg'; constructor; auto. unfold follows, same_numbers. auto 10.
  - destruct (update_params cfg remote rr) as [c| |] eqn:E1; try discriminate. cbn [bind] in E.
    apply update_params_ok in E1 as (N1 & F1); [|exact N]. apply IH in E; [|exact N1].
    assert (F : Forall2 follows cfg c).
    { clear -F1. induction F1 as [|p p' l l' H F IH]; constructor; auto. destruct H as (q & (U1 & U2 & U3) & (K1 & K2 & K3 & K4)).
      assert (S : s_codec (p_spec q) = s_codec (p_spec p) /\ s_clock (p_spec q) = s_clock (p_spec p) /\ s_channels (p_spec q) = s_channels (p_spec p)).
      { destruct (best_remote p remote) as [x|]; [|subst; auto]. destruct U3 as (_ & -> & _). rewrite neg_codec, neg_clock, neg_channels. auto. }
      unfold follows. rewrite K1. destruct S as (-> & -> & ->). repeat (split; [reflexivity|]). intros L.
      destruct (U1 L) as (V1 & V2). rewrite (K3 V2). split; [exact V2|].
      unfold own_pts in V1. unfold same_numbers. destruct (p_resend q), (p_resend p); split; congruence. }
    clear -F E. revert cfg F. induction E as [|x y l l' H E IH]; intros cfg F; inversion F as [|z ? r ? Hz Fr]; subst; constructor; auto.
    unfold follows, same_numbers in *. intuition congruence.
Qed.
Print Assumptions C35_stable.
(** What one description settles: an entry is settled exactly when it was or when it finds a partner; it then has the
    partner's numbers if the remote side insists (it wants to receive). *)
Theorem C35_settled : forall cfg remote cfg', update_params cfg remote true = Ok cfg' -> NoDup (numbers cfg) ->
  Forall2 (fun p p' =>
    (p_locked p' = true <-> p_locked p = true \/ exists r, In r remote /\ compatible (p_spec p) (p_spec r)) /\
    (p_locked p = false -> p_locked p' = true -> exists r, best_remote p remote = Some r /\ same_numbers p' r)) cfg cfg'.
Proof.
  intros cfg remote cfg' E N. apply update_params_ok in E as (_ & F); [|exact N].
  induction F as [|p p' l l' H F IH]; constructor.
  - destruct H as (q & (U1 & U2 & U3) & (K1 & K2 & K3 & K4)). cbn [negb] in U3. split.
    + split.
      * intros L. rewrite K2 in L. destruct (best_remote p remote) as [r|] eqn:B; [|subst; auto]. apply best_in in B. right. eauto.
      * intros [L|(r & I & C)]; [rewrite K2; apply U1; exact L|]. destruct (best_remote p remote) as [x|] eqn:B.
        -- rewrite K2. exact (proj1 U3).
        -- destruct (best_none _ _ B r I C).
    + intros L L'. rewrite K2 in L'. destruct (best_remote p remote) as [x|]; [|congruence]. exists x. split; [reflexivity|].
      destruct U3 as (V1 & V2 & V3 & V4 & V5). rewrite (K3 L'). exact (V4 L eq_refl).
  - apply IH. cbn [numbers flat_map] in N. apply NoDup_app_inv in N. apply N.
Qed.
Print Assumptions C35_settled.
Lemma neg_ptl_agreed l r : agreed l r (neg_ptl l r).
Proof.
  unfold agreed, neg_ptl. destruct r as [r|]; [|reflexivity]. destruct l as [l|].
  - exists (with_level r (Z.min (pl_level l) (pl_level r))). split; [reflexivity|]. unfold with_level. cbn [pl_profile pl_tier pl_level].
    split; [reflexivity|]. split; [reflexivity|]. split; [lia|]. split; [intros x E; assert (x = l) as -> by congruence; lia|].
    destruct (Z.le_ge_cases (pl_level l) (pl_level r)); [right; exists l; split; [reflexivity|lia]|left; lia].
  - exists r. split; [reflexivity|]. repeat (split; [reflexivity || lia|]). split; [intros x E; discriminate|left; reflexivity].
Qed.
(** What a description does to the codecs: one that finds no partner stays as it is; for H.265 and H.266 the partner's profile
    and tier and the lower level are taken over, all other codecs stay as they are. *)
Theorem C35_levels : forall cfg remote rr cfg', update_params cfg remote rr = Ok cfg' -> NoDup (numbers cfg) ->
  Forall2 (fun p p' =>
    match best_remote p remote with
    | None => p_spec p' = p_spec p
    | Some r =>
        In r remote /\ compatible (p_spec p) (p_spec r) /\
        match s_codec (p_spec p) with
        | H265 => s_codec (p_spec r) = H265 -> agreed (f_h265 (s_fmt (p_spec p))) (f_h265 (s_fmt (p_spec r))) (f_h265 (s_fmt (p_spec p')))
        | H266 => s_codec (p_spec r) = H266 -> agreed (f_h266 (s_fmt (p_spec p))) (f_h266 (s_fmt (p_spec r))) (f_h266 (s_fmt (p_spec p')))
        | _ => p_spec p' = p_spec p
        end
    end) cfg cfg'.
Proof.
  intros cfg remote rr cfg' E N. apply update_params_ok in E as (_ & F); [|exact N].
  induction F as [|p p' l l' H F IH]; constructor.
  - destruct H as (q & (U1 & U2 & U3) & (K1 & K2 & K3 & K4)). destruct (best_remote p remote) as [r|] eqn:B.
    + apply best_in in B as (B1 & B2). split; [exact B1|]. split; [exact B2|]. destruct U3 as (_ & V & _). rewrite K1, V.
      destruct (s_codec (p_spec p)) eqn:C; try (apply neg_id; unfold is_h26; rewrite C; intros [X|X]; discriminate).
      * intros D. unfold neg_spec. rewrite C, D. cbn [codec_beq neg_fmt s_fmt f_h265]. apply neg_ptl_agreed.
      * intros D. unfold neg_spec. rewrite C, D. cbn [codec_beq neg_fmt s_fmt f_h266]. apply neg_ptl_agreed.
    + rewrite K1, U3. reflexivity.
  - apply IH. cbn [numbers flat_map] in N. apply NoDup_app_inv in N. apply N.
Qed.
Print Assumptions C35_levels.
(** G.722 is announced with a clock of 8000 although it samples at 16000 (RFC 3551). *)
Theorem C35_g722_clock : forall p pt k ch, In (RtpMap pt G722 k ch) (as_media_attrs p) -> k = 8000.
Proof.
  intros p pt k ch I. unfold as_media_attrs, rtp_clock in I. cbv zeta in I.
  repeat (apply in_app_or in I; destruct I as [I|I]);
    try (match type of I with In _ (if ?b then _ else _) => destruct b end; [destruct I as [I|[]]; discriminate|destruct I]).
  - destruct I as [I|[]]. injection I as <- E <- <-. rewrite E. reflexivity.
  - destruct (to_format_param _); [destruct I|destruct I as [I|[]]; discriminate].
  - destruct (p_resend p); [|destruct I]. destruct I as [I|[I|[]]]; discriminate.
Qed.
Print Assumptions C35_g722_clock.


(** ** When it cannot fail *)
(** A configuration as an application makes it: distinct numbers below 128, at most 21 entries, audio or video. *)
Definition proper (cfg : list pp) : Prop :=
  NoDup (numbers cfg) /\ (forall v, In v (numbers cfg) -> v <= 127) /\ (length cfg <= 21)%nat /\
  (forall p, In p cfg -> (is_audio (s_codec (p_spec p)) = true \/ is_video (s_codec (p_spec p)) = true) /\
      (s_codec (p_spec p) = G722 -> s_clock (p_spec p) = 16000 /\ s_channels (p_spec p) <> Some 1)).
Lemma proper_good cfg : proper cfg <-> good cfg.
Proof. unfold proper, good, le127, writable. tauto. Qed.
(** If the numbers are only suggestions, updating never fails. *)
Theorem C35_suggestions_total : forall cfg remote, proper cfg -> (forall v, In v (numbers remote) -> v <= 127) ->
  exists cfg', update_params cfg remote false = Ok cfg'.
Proof. intros cfg remote (A & B & C & D) R. apply update_params_total; auto. Qed.
Print Assumptions C35_suggestions_total.
(** If the remote side insists, updating fails exactly when a number would be used twice. *)
Theorem C35_insisted_exact : forall cfg remote, proper cfg -> (forall v, In v (numbers remote) -> v <= 127) ->
  ((exists cfg', update_params cfg remote true = Ok cfg') <->
   NoDup (flat_map (fun p => if p_locked p then [] else match best_remote p remote with Some r => own_pts r | None => [] end) cfg
          ++ numbers (filter p_locked cfg))) /\
  (update_params cfg remote true = Panic \/ exists cfg', update_params cfg remote true = Ok cfg').
Proof.
  intros cfg remote (A & B & C & D) R. split; [split|].
  - intros (cfg' & E). exact (update_params_wanted _ _ _ E).
  - intros N. apply update_params_total; auto.
  - destruct (update_params cfg remote true) as [c| |] eqn:E; eauto. destruct (update_params_not_err _ _ _ E).
Qed.
Print Assumptions C35_insisted_exact.

(** ** Through the m-line *)
(** The numbers and codec parameters written in an m-line are read back from it, in order. *)
Theorem C35_line_roundtrip : forall ps, proper ps ->
  map (fun p => (p_pt p, p_resend p, p_spec p)) (rtp_params (line_pts ps) (flat_map as_media_attrs ps)) =
  map (fun p => (p_pt p, p_resend p, p_spec p)) ps.
Proof. intros ps (A & _ & _ & D). apply (wire_key ps); auto. Qed.
Print Assumptions C35_line_roundtrip.

(** ** Two peers *)
Definition fresh (cfg : list pp) : Prop := forall p, In p cfg -> p_locked p = false.
Lemma fresh_inv a b : proper a -> proper b -> separated a -> separated b -> fresh a -> fresh b -> inv a b.
Proof.
  rewrite !proper_good. intros A B C D E F. repeat (split; [assumption|]). split; intros x I L; [rewrite (E x I) in L|rewrite (F x I) in L]; discriminate.
Qed.
Lemma inv_agree a b : inv a b -> forall p q, In p a -> In q b -> compatible (p_spec p) (p_spec q) ->
  p_locked p = p_locked q /\ (p_locked p = true -> same_numbers p q).
Proof.
  intros (_ & _ & SA & SB & LA & LB) p q I J C.
  assert (X : p_locked p = true -> p_locked q = true /\ same_numbers p q).
  { intros L. destruct (LA p I L) as (q' & J' & L' & C' & N'). assert (q = q') as <- by (apply (SB (p_spec p)); auto; apply compat_sym; auto). auto. }
  assert (Y : p_locked q = true -> p_locked p = true).
  { intros L. destruct (LB q J L) as (p' & I' & L' & C' & N'). assert (p = p') as <-; [|exact L'].
    apply (SA (p_spec q)); auto. apply compat_sym. exact C'. }
  split; [|tauto]. destruct (p_locked p), (p_locked q); try reflexivity; [destruct (X eq_refl)|specialize (Y eq_refl)]; congruence.
Qed.
(** Whatever new media the two sides offer each other, in any order and directions: no step fails, numbers stay distinct on each
    side, and compatible entries are settled on both sides or on neither, with the same numbers. *)
Theorem C35_agree : forall h a b, proper a -> proper b -> separated a -> separated b -> fresh a -> fresh b ->
  exists a' b', exchanges a b h = Ok (a', b') /\ NoDup (numbers a') /\ NoDup (numbers b') /\
    forall p q, In p a' -> In q b' -> compatible (p_spec p) (p_spec q) ->
      p_locked p = p_locked q /\ (p_locked p = true -> same_numbers p q).
Proof.
  intros h a b A B C D E F. destruct (exchanges_inv h a b (fresh_inv a b A B C D E F)) as (a' & b' & X & I).
  exists a', b'. split; [exact X|]. split; [apply I|]. split; [apply I|]. apply inv_agree. exact I.
Qed.
Print Assumptions C35_agree.
(** A settled number means the same thing to both: the entry that has it on the other side is compatible. *)
Theorem C35_number_means : forall h a b a' b', proper a -> proper b -> separated a -> separated b -> fresh a -> fresh b ->
  exchanges a b h = Ok (a', b') -> forall p, In p a' -> p_locked p = true ->
  exists q, In q b' /\ p_locked q = true /\ p_pt q = p_pt p /\ p_resend q = p_resend p /\ compatible (p_spec p) (p_spec q) /\
    forall q', In q' b' -> p_pt q' = p_pt p -> q' = q.
Proof.
  intros h a b a' b' A B C D E F X p I L. destruct (exchanges_inv h a b (fresh_inv a b A B C D E F)) as (a1 & b1 & X1 & V).
  assert (a1 = a' /\ b1 = b') as (-> & ->) by (split; congruence). destruct V as (GA & GB & SA & SB & LA & LB).
  destruct (LA p I L) as (q & J & M & K & (N1 & N2)). exists q. split; [exact J|]. split; [exact M|]. split; [auto|]. split; [auto|]. split; [exact K|].
  intros q' J' N'. apply (share b' q' q (p_pt p)); auto; [apply GB|left; auto|left; auto].
Qed.
Print Assumptions C35_number_means.
(** Every codec that both support and that is offered becomes usable: settled on both sides with the offerer's numbers. *)
Theorem C35_shared_usable : forall h a b a1 b1 lines a2 b2, proper a -> proper b -> separated a -> separated b -> fresh a -> fresh b ->
  exchanges a b h = Ok (a1, b1) -> exchange a1 b1 lines = Ok (a2, b2) ->
  forall i j p q l, nth_error a1 i = Some p -> nth_error b1 j = Some q -> compatible (p_spec p) (p_spec q) ->
    In l lines -> of_kind (l_video l) p = true -> In (p_pt p) (l_list l) ->
    exists p' q', nth_error a2 i = Some p' /\ nth_error b2 j = Some q' /\ p_locked p' = true /\ p_locked q' = true /\
      same_numbers p' p /\ same_numbers q' p.
Proof.
  intros h a b a1 b1 lines a2 b2 A B C D E F X Y i j p q l Ei Ej K Il Kl Pl.
  destruct (exchanges_inv h a b (fresh_inv a b A B C D E F)) as (a' & b' & X1 & V).
  assert (a' = a1 /\ b' = b1) as (-> & ->) by (split; congruence). clear X X1.
  destruct (exchange_inv a1 b1 lines V) as (a' & b' & Y1 & V2 & (F1 & F2)).
  assert (a' = a2 /\ b' = b2) as (-> & ->) by (split; congruence). clear Y Y1.
  assert (NT : forall R (l0 l1 : list pp) n x, Forall2 R l0 l1 -> nth_error l0 n = Some x -> exists y, nth_error l1 n = Some y /\ R x y /\ In x l0 /\ In y l1).
  { clear. intros R l0 l1 n x H. revert n. induction H as [|u v r r' H F IH]; intros n Hn; [destruct n; discriminate|].
    destruct n as [|n]; cbn [nth_error] in *.
    - exists v. assert (u = x) as <- by congruence. split; [reflexivity|]. split; [exact H|]. split; left; reflexivity.
    - destruct (IH n Hn) as (y & Y1 & Y2 & Y3 & Y4). exists y. split; [exact Y1|]. split; [exact Y2|]. split; right; assumption. }
  destruct (NT _ _ _ _ _ F1 Ej) as (q' & Q1 & Q2 & Q3 & Q4). destruct (NT _ _ _ _ _ F2 Ei) as (p' & P1 & P2 & P3 & P4).
  destruct V as (GA & GB & SA & SB & LA & LB). destruct V2 as (GA2 & GB2 & SA2 & SB2 & _).
  assert (O : exists l, In l lines /\ In p (line_params a1 (l_video l) (l_list l))) by (exists l; split; [exact Il|]; apply line_in; auto).
  assert (K' : compatible (p_spec q') (p_spec p)) by (apply (pos_compat a1 SA _ q q' p Q2 P3); apply compat_sym; exact K).
  destruct (pos_matched a1 SA _ q q' p Q2 P3 O K') as (L1 & N1 & S1 & _).
  exists p', q'. split; [exact P1|]. split; [exact Q1|].
  destruct P2 as [(q1 & J1 & M1 & C1 & L2 & S2 & N2)|(U & _)].
  - assert (q1 = q') as -> by (apply (SB2 (p_spec p)); auto; apply compat_sym; auto).
    split; [exact L2|]. split; [exact L1|]. split; [|exact N1]. unfold same_numbers in *. intuition congruence.
  - exfalso. apply (U q' Q4); [exists p; auto|]. apply compat_sym. exact K'.
Qed.
Print Assumptions C35_shared_usable.

(** ** The configurations the enable calls make *)
Definition en_entries (e : enable) : list pp := match do_enable [] e true with Ok l => l | _ => [] end.
Definition universe : list pp := flat_map en_entries [EnPcmu; EnPcma; EnG722; EnCn; EnOpus; EnVp8; EnH264; EnH265; EnH266; EnVp9; EnAv1].
Lemma en_step cfg e : do_enable cfg e true = Ok (filter (fun p => negb (codec_beq (s_codec (p_spec p)) (enable_codec e))) cfg ++ en_entries e).
Proof. destruct e; unfold do_enable; cbn [negb fold_left add_static static_spec Z.eqb]; unfold add_h264, add_h265, add_h266, add_config; rewrite <- ?app_assoc; reflexivity. Qed.
Lemma en_off cfg e : do_enable cfg e false = Ok (filter (fun p => negb (codec_beq (s_codec (p_spec p)) (enable_codec e))) cfg).
Proof. reflexivity. Qed.
Fixpoint nodupb (l : list Z) : bool := match l with [] => true | x :: r => negb (mem x r) && nodupb r end.
Lemma nodupb_ok l : nodupb l = true -> NoDup l.
Proof.
  induction l as [|x r IH]; cbn [nodupb]; intros H; [constructor|]. apply andb_true_iff in H as (A & B). constructor; [|auto].
  apply mem_false. apply negb_true_iff. exact A.
Qed.
Lemma universe_numbers : NoDup (numbers universe).
Proof. apply nodupb_ok. vm_compute. reflexivity. Qed.
Lemma universe_le : le127 (numbers universe).
Proof.
  assert (E : forallb (fun v => v <=? 127) (numbers universe) = true) by (vm_compute; reflexivity).
  rewrite forallb_forall in E. intros v V. apply E in V. lia.
Qed.
Definition sig (s : spec) : codec * Z * option h264profile :=
  match s_codec s with
  | H264 => (H264, dflt 0 (f_pmode (s_fmt s)), h264_profile (s_fmt s))
  | Vp9 => (Vp9, dflt 0 (f_pid (s_fmt s)), None)
  | c => (c, 0, None) end.
Lemma compat_sig s t : compatible s t -> sig s = sig t.
Proof.
  intros [->|(A & B & C & D)]; [reflexivity|]. unfold sig. rewrite <- A. destruct (s_codec s); cbn [formats_agree] in D; try reflexivity.
  - destruct D as (-> & -> & _). reflexivity.
  - rewrite D. reflexivity.
Qed.
Definition sigb (x y : codec * Z * option h264profile) : bool :=
  match x, y with (c, v, o), (c', v', o') => codec_beq c c' && (v =? v') &&
    match o, o' with Some p, Some q => h264profile_beq p q | None, None => true | _, _ => false end end.
Lemma sigb_refl x : sigb x x = true.
Proof.
  destruct x as [[c v] o]. unfold sigb. rewrite (proj2 (codec_beq_iff c c) eq_refl), Z.eqb_refl. destruct o as [p|]; [|reflexivity].
  rewrite (proj2 (h264_beq_iff p p) eq_refl). reflexivity.
Qed.
Lemma universe_sep : separated universe.
Proof.
  assert (E : forallb (fun p => forallb (fun q => negb (sigb (sig (p_spec p)) (sig (p_spec q))) || (p_pt p =? p_pt q)) universe) universe = true) by (vm_compute; reflexivity).
  intros s p q I J C D. apply compat_sig in C, D. rewrite forallb_forall in E. pose proof (E p I) as E1. rewrite forallb_forall in E1.
  specialize (E1 q J). rewrite C, <- D, sigb_refl in E1. cbn [negb orb] in E1. apply Z.eqb_eq in E1.
  apply (share universe p q (p_pt p)); auto; [apply universe_numbers|left; reflexivity|left; congruence].
Qed.
Lemma universe_writable p : In p universe -> writable (p_spec p) /\ p_locked p = false.
Proof.
  intros I. assert (E : forallb (fun p => (is_audio (s_codec (p_spec p)) || is_video (s_codec (p_spec p))) &&
     (negb (codec_beq (s_codec (p_spec p)) G722) || ((s_clock (p_spec p) =? 16000) && negb (oeqb Z.eq_dec (s_channels (p_spec p)) (Some 1)))) && negb (p_locked p)) universe = true) by (vm_compute; reflexivity).
  rewrite forallb_forall in E. apply E in I. apply andb_true_iff in I as (I & L). apply andb_true_iff in I as (I & G).
  apply negb_true_iff in L. split; [|exact L]. split; [apply orb_true_iff; exact I|]. intros H. apply codec_beq_iff in H. rewrite H in G. cbn [negb orb] in G.
  apply andb_true_iff in G as (G1 & G2). split; [lia|]. intros X. rewrite (proj2 (oeqb_iff Z.eq_dec _ _) X) in G2. discriminate.
Qed.
Lemma sub_proper cfg : NoDup cfg -> incl cfg universe -> proper cfg /\ separated cfg /\ fresh cfg.
Proof.
  intros N I. split; [|split].
  - split; [|split; [|split]].
    + rewrite numbers_own. apply (NoDup_flat_pos cfg); auto.
      * intros y Y. eapply own_nodup; [exact universe_numbers|auto].
      * intros x y x' y' v Hx Hx' V V'.
        assert (DG : forall (l : list pp) u w, In (u, w) (combine l l) -> u = w).
        { clear. induction l as [|z l IH]; intros u w H; [destruct H|]. destruct H as [H|H]; [congruence|auto]. }
        pose proof (DG _ _ _ Hx) as <-. pose proof (DG _ _ _ Hx') as <-. apply in_combine_l in Hx, Hx'.
        apply (share universe x x' v); auto. apply universe_numbers.
    + intros v V. apply universe_le. rewrite numbers_own in *. apply in_flat_map in V as (p & P & V). apply in_flat_map. eauto.
    + pose proof (NoDup_incl_length N I) as L. change (length universe) with 18%nat in L. lia.
    + intros p P. apply (universe_writable p). auto.
  - intros s p q P Q. apply universe_sep; auto.
  - intros p P. apply (universe_writable p). auto.
Qed.
Lemma enables_inv l : forall cfg, NoDup cfg -> incl cfg universe -> exists cfg', enables cfg l = Ok cfg' /\ NoDup cfg' /\ incl cfg' universe.
Proof.
  induction l as [|[e on] r IH]; intros cfg N I; cbn [enables]; [eauto|].
  set (f := fun p => negb (codec_beq (s_codec (p_spec p)) (enable_codec e))).
  assert (N1 : NoDup (filter f cfg)) by (apply NoDup_filter; exact N).
  assert (I1 : incl (filter f cfg) universe) by (intros p P; apply filter_In in P as (P & _); auto).
  destruct on.
  - rewrite en_step. cbn [bind]. fold f. apply IH.
    + apply NoDup_app_intro; [exact N1| |].
      * assert (E : nodupb (map p_pt (en_entries e)) = true) by (destruct e; vm_compute; reflexivity). apply nodupb_ok in E.
        apply (NoDup_map_inv p_pt). exact E.
      * intros p P Q. apply filter_In in P as (_ & P). assert (E : forallb (fun p => negb (f p)) (en_entries e) = true) by (unfold f; destruct e; vm_compute; reflexivity).
        rewrite forallb_forall in E. apply E in Q. rewrite P in Q. discriminate.
    + intros p P. apply in_app_or in P as [P|P]; [auto|]. unfold universe. apply in_flat_map. exists e. split; [|exact P]. destruct e; cbn; auto 12.
  - rewrite en_off. cbn [bind]. apply IH; assumption.
Qed.
(** Whatever sequence of enable and disable calls: they succeed and the result meets the conditions of the theorems above. *)
Theorem C35_enabled_configs : forall l, exists cfg, enables [] l = Ok cfg /\ proper cfg /\ separated cfg /\ fresh cfg.
Proof.
  intros l. destruct (enables_inv l [] (NoDup_nil _)) as (cfg & E & N & I); [intros ? []|]. exists cfg. split; [exact E|]. apply sub_proper; assumption.
Qed.
Print Assumptions C35_enabled_configs.

(** ** Examples *)
Definition defaults : list pp := match new_with_defaults with Ok c => c | _ => [] end.
Example defaults_13 : length defaults = 13%nat /\ new_with_defaults = Ok defaults.
Proof. split; vm_compute; reflexivity. Qed.
(** A peer with other numbers and parameters: opus at 109, VP8 at 120/124, a lower H.264 level at 126/127, H.265 level 3.1 at 35/36. *)
Definition other : list pp :=
  let p pt rs c k ch f := mkPp pt rs (mkSpec c k ch f) true true true true true false in
  [p 109 None Opus 48000 (Some 2) fmt0; p 120 (Some 124) Vp8 90000 None fmt0;
   p 126 (Some 127) H264 90000 None (mkFmt None None None None None (Some true) (Some 1) (Some 4382741) None None None None None None None);
   p 35 (Some 36) H265 90000 None (mkFmt None None None None None None None None None None None None (h265_new 1 0 93) None None);
   p 0 None PCMU 8000 None fmt0].
Lemma other_sep : separated other.
Proof.
  intros s p q I J C D. apply compat_sig in C, D.
  assert (E : forallb (fun p => forallb (fun q => negb (sigb (sig (p_spec p)) (sig (p_spec q))) || (p_pt p =? p_pt q)) other) other = true) by (vm_compute; reflexivity).
  rewrite forallb_forall in E. pose proof (E p I) as E1. rewrite forallb_forall in E1. specialize (E1 q J). rewrite C, <- D, sigb_refl in E1. cbn [negb orb] in E1. apply Z.eqb_eq in E1.
  apply (share other p q (p_pt p)); auto; [apply nodupb_ok; vm_compute; reflexivity|left; reflexivity|left; congruence].
Qed.
Lemma other_proper : proper other /\ fresh other.
Proof.
  split; [split; [|split; [|split]]|].
  - apply nodupb_ok. vm_compute. reflexivity.
  - assert (E : forallb (fun v => v <=? 127) (numbers other) = true) by (vm_compute; reflexivity). rewrite forallb_forall in E. intros v V. apply E in V. lia.
  - cbn; lia.
  - intros p I. cbn in I. destruct I as [<-|[<-|[<-|[<-|[<-|[]]]]]]; cbn; split; auto; discriminate.
  - intros p I. cbn in I. destruct I as [<-|[<-|[<-|[<-|[<-|[]]]]]]; reflexivity.
Qed.
(** The other side offers audio and video in one offer, then we offer another video line. *)
Definition video_line ps := mkLine true (map p_pt ps) true true.
Definition audio_line ps := mkLine false (map p_pt ps) false true.
Example exchange_works :
  match exchanges other defaults [(true, [audio_line other; video_line other]); (false, [video_line defaults])] with
  | Ok (a, b) => map (fun p => (p_pt p, p_resend p, p_locked p)) a =
                 [(109, None, true); (120, Some 124, true); (126, Some 127, true); (35, Some 36, true); (0, None, false)] /\
                 map (fun p => (p_pt p, p_resend p)) (filter p_locked b) = [(109, None); (120, Some 124); (126, Some 127); (35, Some 36)] /\
                 nodupb (numbers b) = true
  | _ => False end.
Proof. vm_compute. auto. Qed.

(** ** What does not hold *)
(** Two entries of one profile at different levels: a remote that has the profile once makes the call panic. *)
Definition h264 pt rs plid := mkPp pt rs (mkSpec H264 90000 None (mkFmt None None None None None (Some true) (Some 1) (Some plid) None None None None None None None)) true true true true true false.
Theorem C35_no_panic_refuted : exists cfg remote, proper cfg /\ fresh cfg /\ NoDup (numbers remote) /\
  (forall v, In v (numbers remote) -> 0 <= v <= 127) /\ update_params cfg remote true = Panic.
Proof.
  exists [h264 108 (Some 109) 4382751; h264 112 (Some 113) 4382741], [h264 96 (Some 97) 4382751].
  split; [|split; [|split; [|split]]].
  - split; [|split; [|split]].
    + apply nodupb_ok. reflexivity.
    + intros v V. cbn in V. lia.
    + cbn. lia.
    + intros p I. cbn in I. destruct I as [<-|[<-|[]]]; cbn; split; auto; discriminate.
  - intros p I. cbn in I. destruct I as [<-|[<-|[]]]; reflexivity.
  - apply nodupb_ok. reflexivity.
  - intros v V. cbn in V. lia.
  - vm_compute. reflexivity.
Qed.
Print Assumptions C35_no_panic_refuted.
(** A remote SDP can make the default configuration panic: one resend number for two codecs.  Every listed payload type has exactly
    one rtpmap, so the consistency check (data.rs:464-486) accepts the line. *)
Definition bad_attrs : list attr :=
  [RtpMap 96 Vp8 90000 None; RtpMap 97 Rtx 90000 None; RtpMap 98 Vp9 90000 None; Fmtp 98 [ProfileId 0]; Fmtp 97 [Apt 96]; Fmtp 97 [Apt 98]].
Theorem C35_remote_panic_refuted :
  NoDup [96; 97; 98] /\ (forall v, In v [96; 97; 98] -> length (filter (fun a => match a with RtpMap pt _ _ _ => pt =? v | _ => false end) bad_attrs) = 1%nat) /\
  update_params defaults (rtp_params [96; 97; 98] bad_attrs) true = Panic.
Proof.
  split; [apply nodupb_ok; reflexivity|]. split; [|vm_compute; reflexivity].
  intros v V. cbn in V. destruct V as [<-|[<-|[<-|[]]]]; reflexivity.
Qed.
Print Assumptions C35_remote_panic_refuted.
(** So does a number that means opus in one m-line and VP8 in the next. *)
Theorem C35_reuse_panic_refuted :
  apply_lines defaults [(rtp_params [96] [RtpMap 96 Opus 48000 (Some 2)], true); (rtp_params [96] [RtpMap 96 Vp8 90000 None], true)] = Panic.
Proof. vm_compute. reflexivity. Qed.
Print Assumptions C35_reuse_panic_refuted.
(** An answer can list a codec that was not offered, at a number the offer gave to another codec: the offer has one H.264 profile
    twice, at 96 and 102, and no H.265; the answer says that 102 is H.265. *)
Definition two_levels : list pp := [h264 96 (Some 97) 4382751; h264 102 (Some 103) 4382741].
Theorem C35_answer_offered_refuted :
  exists b ptss, apply_lines defaults [(wire two_levels, true)] = Ok (b, ptss) /\
    exists p, In p (line_params b true (nth 0 ptss [])) /\ p_pt p = 102 /\ s_codec (p_spec p) = H265 /\
      forall q, In q (wire two_levels) -> s_codec (p_spec q) = H264.
Proof.
  destruct (apply_lines defaults [(wire two_levels, true)]) as [[b ptss]| |] eqn:E; [|vm_compute in E; discriminate|vm_compute in E; discriminate].
  exists b, ptss. split; [reflexivity|].
  assert (X : match apply_lines defaults [(wire two_levels, true)] with
    | Ok (b, ptss) => existsb (fun p => (p_pt p =? 102) && codec_beq (s_codec (p_spec p)) H265) (line_params b true (nth 0 ptss [])) | _ => false end = true) by (vm_compute; reflexivity).
  rewrite E in X. apply existsb_exists in X as (p & I & H). apply andb_true_iff in H as (H1 & H2). exists p. split; [exact I|]. split; [lia|].
  split; [apply codec_beq_iff; exact H2|].
  assert (Y : forallb (fun q => codec_beq (s_codec (p_spec q)) H264) (wire two_levels) = true) by (vm_compute; reflexivity).
  rewrite forallb_forall in Y. intros q Q. apply codec_beq_iff. auto.
Qed.
Print Assumptions C35_answer_offered_refuted.

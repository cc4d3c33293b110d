(** The parameters written in an m-line are the ones read from it. *)
From Coq Require Import Permutation.
From Verif Require Import Base BaseFacts PayModel PaySpec PayProofs PayProofs2 PayProofs3.

Definition key (p : pp) : Z * option Z * spec := (p_pt p, p_resend p, p_spec p).

Lemma filter_map_app {A B} (f : A -> option B) l1 l2 : filter_map f (l1 ++ l2) = filter_map f l1 ++ filter_map f l2.
Proof. induction l1 as [|a r IH]; [reflexivity|]. cbn [app filter_map]. rewrite IH. destruct (f a); reflexivity. Qed.
Lemma filter_map_flat {A B C} (f : B -> option C) (g : A -> list B) l : filter_map f (flat_map g l) = flat_map (fun a => filter_map f (g a)) l.
Proof. induction l as [|a r IH]; [reflexivity|]. cbn [flat_map]. rewrite filter_map_app, IH. reflexivity. Qed.

Definition maps_p (p : pp) : list (Z * (codec * Z * option Z)) :=
  (p_pt p, (s_codec (p_spec p), rtp_clock (p_spec p), s_channels (p_spec p))) ::
  match p_resend p with Some r => [(r, (Rtx, rtp_clock (p_spec p), None))] | None => [] end.
Definition fm_p (p : pp) : list (Z * list fparam) :=
  match to_format_param (s_fmt (p_spec p)) with [] => [] | v => [(p_pt p, v)] end ++
  match p_resend p with Some r => [(r, [Apt (p_pt p)])] | None => [] end.
Lemma maps_attrs p : filter_map map_of (as_media_attrs p) = maps_p p.
Proof.
  unfold as_media_attrs, maps_p. destruct (p_tcc p), (p_remb p), (p_fir p), (p_nack p), (p_pli p);
    destruct (to_format_param _); destruct (p_resend p); reflexivity.
Qed.
Lemma fm_attrs p : filter_map fmtp_of (as_media_attrs p) = fm_p p.
Proof.
  unfold as_media_attrs, fm_p. destruct (p_tcc p), (p_remb p), (p_fir p), (p_nack p), (p_pli p);
    destruct (to_format_param _); destruct (p_resend p); reflexivity.
Qed.

Lemma statics_id pts : forall ms, (forall pt, In pt pts -> existsb (fun m => fst m =? pt) ms = true) -> statics pts ms = ms.
Proof.
  unfold statics. induction pts as [|a r IH]; intros ms H; [reflexivity|]. cbn [fold_left].
  rewrite (H a (or_introl eq_refl)). apply IH. intros pt I. apply H. right. exact I.
Qed.
Lemma maps_has ps pt : In pt (line_pts ps) -> existsb (fun m => fst m =? pt) (flat_map maps_p ps) = true.
Proof.
  intros I. apply existsb_exists. unfold line_pts in I. apply in_flat_map in I as (p & I & J).
  assert (K : exists x, In x (maps_p p) /\ fst x = pt).
  { unfold maps_p, own_pts in *. destruct J as [<-|J]; [eexists; split; [left; reflexivity|reflexivity]|].
    destruct (p_resend p) as [r|]; [|destruct J]. destruct J as [<-|[]]. eexists; split; [right; left; reflexivity|reflexivity]. }
  destruct K as (x & K & <-). exists x. split; [apply in_flat_map; eauto|apply Z.eqb_refl].
Qed.

(** A specification that can be written in an m-line. *)
Definition writable (s : spec) : Prop :=
  (is_audio (s_codec s) = true \/ is_video (s_codec s) = true) /\
  (s_codec s = G722 -> s_clock s = 16000 /\ s_channels s <> Some 1).

Lemma av_maps ps : (forall p, In p ps -> writable (p_spec p)) ->
  filter (fun m : Z * (codec * Z * option Z) => let c := fst (fst (snd m)) in is_audio c || is_video c) (flat_map maps_p ps) =
  map (fun p => (p_pt p, (s_codec (p_spec p), rtp_clock (p_spec p), s_channels (p_spec p)))) ps.
Proof.
  cbv zeta. induction ps as [|p r IH]; intros W; [reflexivity|]. cbn [flat_map map]. rewrite filter_app, IH by (intros q Q; apply W; right; exact Q).
  unfold maps_p. cbn [filter fst snd].
  assert (E : is_audio (s_codec (p_spec p)) || is_video (s_codec (p_spec p)) = true).
  { apply orb_true_iff. apply (W p). left. reflexivity. }
  rewrite E. destruct (p_resend p); reflexivity.
Qed.

Definition no_apt (vs : list fparam) : Prop := forall v, ~ In (Apt v) vs.
Lemma no_apt_fmt f : no_apt (to_format_param f).
Proof.
  intros v H. unfold to_format_param in H. repeat (apply in_app_or in H; destruct H as [H|H]);
    unfold opt1 in H; match type of H with In _ (match ?o with _ => _ end) => destruct o end; cbn in H; try tauto;
    destruct H as [H|H]; try discriminate; tauto.
Qed.
Lemma apt_fold_id maps pt vs : forall p, (forall v, In (Apt v) vs -> v <> p_pt p) ->
  fold_left (fun p q => match q with
    | Apt v => if (v =? p_pt p) && existsb (fun m : Z * (codec * Z * option Z) => (fst m =? pt) && codec_beq (fst (fst (snd m))) Rtx) maps
               then set_pts p (p_pt p) (Some pt) (p_locked p) else p
    | _ => p end) vs p = p.
Proof.
  induction vs as [|q r IH]; intros p H; [reflexivity|]. cbn [fold_left].
  assert (E : (match q with
    | Apt v => if (v =? p_pt p) && existsb (fun m : Z * (codec * Z * option Z) => (fst m =? pt) && codec_beq (fst (fst (snd m))) Rtx) maps
               then set_pts p (p_pt p) (Some pt) (p_locked p) else p
    | _ => p end) = p).
  { destruct q; try reflexivity. destruct (Z.eqb_spec v (p_pt p)); [|reflexivity]. exfalso. eapply H; [left; reflexivity|exact e]. }
  rewrite E. apply IH. intros v I. apply H. right. exact I.
Qed.
Lemma apply_other maps p pt vs : pt <> p_pt p -> (forall v, In (Apt v) vs -> v <> p_pt p) -> apply_fmtp maps p (pt, vs) = p.
Proof.
  intros A B. unfold apply_fmtp. destruct (Z.eqb_spec pt (p_pt p)); [tauto|]. apply apt_fold_id. exact B.
Qed.
Lemma fold_other maps l : forall p, (forall q, In q l -> ~ In (p_pt p) (own_pts q)) ->
  fold_left (apply_fmtp maps) (flat_map fm_p l) p = p.
Proof.
  induction l as [|q r IH]; intros p H; [reflexivity|]. cbn [flat_map]. rewrite fold_left_app.
  assert (E : fold_left (apply_fmtp maps) (fm_p q) p = p).
  { pose proof (H q (or_introl eq_refl)) as N. unfold own_pts in N. unfold fm_p. rewrite fold_left_app.
    assert (E1 : fold_left (apply_fmtp maps) match to_format_param (s_fmt (p_spec q)) with [] => [] | v => [(p_pt q, v)] end p = p).
    { pose proof (no_apt_fmt (s_fmt (p_spec q))) as NA. destruct (to_format_param _) as [|x l]; [reflexivity|]. cbn [fold_left].
      apply apply_other; [intros X; apply N; left; exact X|]. intros v X. destruct (NA v X). }
    rewrite E1. destruct (p_resend q) as [v|]; [|reflexivity]. cbn [fold_left]. apply apply_other.
    - intros X. apply N. right. left. exact X.
    - intros w [[= <-]|[]] X. apply N. left. exact X. }
  rewrite E. apply IH. intros x X. apply H. right. exact X.
Qed.

Lemma set_0 a : fold_left set_param (opt1 MinPTime a) (mkFmt  None None None None None None None None None None None None None None None) = mkFmt a None None None None None None None None None None None None None None.
Proof. destruct a; reflexivity. Qed.
Lemma set_1 a b : fold_left set_param (opt1 Stereo b) (mkFmt a None None None None None None None None None None None None None None) = mkFmt a b None None None None None None None None None None None None None.
Proof. destruct b; reflexivity. Qed.
Lemma set_2 a b c : fold_left set_param (opt1 SpropStereo c) (mkFmt a b None None None None None None None None None None None None None) = mkFmt a b c None None None None None None None None None None None None.
Proof. destruct c; reflexivity. Qed.
Lemma set_3 a b c d : fold_left set_param (opt1 UseInbandFec d) (mkFmt a b c None None None None None None None None None None None None) = mkFmt a b c d None None None None None None None None None None None.
Proof. destruct d; reflexivity. Qed.
Lemma set_4 a b c d e : fold_left set_param (opt1 UseDtx e) (mkFmt a b c d None None None None None None None None None None None) = mkFmt a b c d e None None None None None None None None None None.
Proof. destruct e; reflexivity. Qed.
Lemma set_5 a b c d e g : fold_left set_param (opt1 LevelAsymmetryAllowed g) (mkFmt a b c d e None None None None None None None None None None) = mkFmt a b c d e g None None None None None None None None None.
Proof. destruct g; reflexivity. Qed.
Lemma set_6 a b c d e g h : fold_left set_param (opt1 PacketizationMode h) (mkFmt a b c d e g None None None None None None None None None) = mkFmt a b c d e g h None None None None None None None None.
Proof. destruct h; reflexivity. Qed.
Lemma set_7 a b c d e g h j : fold_left set_param (opt1 ProfileLevelId j) (mkFmt a b c d e g h None None None None None None None None) = mkFmt a b c d e g h j None None None None None None None.
Proof. destruct j; reflexivity. Qed.
Lemma set_8 a b c d e g h j k : fold_left set_param (opt1 ProfileId k) (mkFmt a b c d e g h j None None None None None None None) = mkFmt a b c d e g h j k None None None None None None.
Proof. destruct k; reflexivity. Qed.
Lemma set_9 a b c d e g h j k l : fold_left set_param (opt1 Profile l) (mkFmt a b c d e g h j k None None None None None None) = mkFmt a b c d e g h j k l None None None None None.
Proof. destruct l; reflexivity. Qed.
Lemma set_10 a b c d e g h j k l m : fold_left set_param (opt1 LevelIdx m) (mkFmt a b c d e g h j k l None None None None None) = mkFmt a b c d e g h j k l m None None None None.
Proof. destruct m; reflexivity. Qed.
Lemma set_11 a b c d e g h j k l m n : fold_left set_param (opt1 Tier n) (mkFmt a b c d e g h j k l m None None None None) = mkFmt a b c d e g h j k l m n None None None.
Proof. destruct n; reflexivity. Qed.
Lemma set_12 a b c d e g h j k l m n p : fold_left set_param (opt1 FH265 p) (mkFmt a b c d e g h j k l m n None None None) = mkFmt a b c d e g h j k l m n p None None.
Proof. destruct p; reflexivity. Qed.
Lemma set_13 a b c d e g h j k l m n p q : fold_left set_param (opt1 FH266 q) (mkFmt a b c d e g h j k l m n p None None) = mkFmt a b c d e g h j k l m n p q None.
Proof. destruct q; reflexivity. Qed.
Lemma set_14 a b c d e g h j k l m n p q r : fold_left set_param (opt1 SpropMaxDonDiff r) (mkFmt a b c d e g h j k l m n p q None ) = mkFmt a b c d e g h j k l m n p q r .
Proof. destruct r; reflexivity. Qed.
Lemma set_all f : fold_left set_param (to_format_param f) fmt0 = f.
Proof.
  destruct f as [a b c d e g h j k l m n p q r]. unfold to_format_param. cbn [f_minptime f_stereo f_sprop_stereo f_fec f_dtx f_asym f_pmode f_plid f_pid f_profile f_level_idx f_tier f_h265 f_h266 f_don].
  rewrite !fold_left_app. unfold fmt0.
  rewrite set_0, set_1, set_2, set_3, set_4, set_5, set_6, set_7, set_8, set_9, set_10, set_11, set_12, set_13, set_14. reflexivity.
Qed.

Lemma fb_key l : forall p, key (fold_left apply_fb l p) = key p.
Proof.
  induction l as [|[pt v] r IH]; intros p; [reflexivity|]. cbn [fold_left]. rewrite IH. unfold apply_fb.
  destruct (pt =? p_pt p); [|reflexivity]. destruct p, v; reflexivity.
Qed.

Lemma spec_of_map_eq s : writable s -> s_fmt s = fmt0 -> spec_of_map (s_codec s) (rtp_clock s) (s_channels s) = s.
Proof.
  intros (_ & W) F. unfold spec_of_map, rtp_clock. destruct (codec_beq (s_codec s) G722) eqn:E.
  - apply codec_beq_iff in E. destruct (W E) as (A & B). destruct s as [c k h f]. cbn [s_codec s_clock s_channels s_fmt] in *. subst.
    f_equal. destruct h as [v|]; [|reflexivity]. destruct (Z.eq_dec v 1) as [->|N]; [tauto|].
    destruct v as [|[p|p|]|p]; try reflexivity. tauto.
  - destruct s as [c k h f]. cbn [s_codec s_clock s_channels s_fmt] in *. subst. reflexivity.
Qed.

Lemma own_key maps p : writable (p_spec p) -> ~ (exists r, p_resend p = Some r /\ r = p_pt p) ->
  (forall r, p_resend p = Some r -> existsb (fun m : Z * (codec * Z * option Z) => (fst m =? r) && codec_beq (fst (fst (snd m))) Rtx) maps = true) ->
  key (fold_left (apply_fmtp maps) (fm_p p) (pp_new (p_pt p) (spec_of_map (s_codec (p_spec p)) (rtp_clock (p_spec p)) (s_channels (p_spec p))))) = key p.
Proof.
  intros W NR M. destruct p as [pt rs s t n pl fi re lk]. cbn [p_pt p_resend p_spec] in *.
  set (s0 := mkSpec (s_codec s) (s_clock s) (s_channels s) fmt0).
  assert (E0 : spec_of_map (s_codec s) (rtp_clock s) (s_channels s) = s0).
  { pose proof (spec_of_map_eq s0) as X. unfold s0 in X at 2 3 4. unfold rtp_clock in X. cbn [s_codec s_clock s_channels] in X. rewrite <- X at 1.
    - reflexivity.
    - exact W.
    - reflexivity. }
  rewrite E0. unfold fm_p. cbn [p_pt p_resend p_spec]. rewrite fold_left_app.
  set (x := pp_new pt s0).
  assert (E1 : fold_left (apply_fmtp maps) match to_format_param (s_fmt s) with [] => [] | v => [(pt, v)] end x = set_spec x s).
  { pose proof (set_all (s_fmt s)) as SA. pose proof (no_apt_fmt (s_fmt s)) as NA.
    destruct (to_format_param (s_fmt s)) as [|f l] eqn:F.
    - cbn [fold_left] in *. unfold x, pp_new, set_spec; cbn [p_pt p_resend p_tcc p_nack p_pli p_fir p_remb p_locked]. f_equal.
      unfold s0. rewrite SA. destruct s; reflexivity.
    - cbn [fold_left]. unfold apply_fmtp. rewrite Z.eqb_refl. cbn [p_spec x pp_new]. rewrite apt_fold_id.
      + unfold set_spec. cbn [p_pt p_resend p_tcc p_nack p_pli p_fir p_remb p_locked pp_new x]. f_equal.
        unfold s0. cbn [s_codec s_clock s_channels s_fmt]. rewrite SA. destruct s; reflexivity.
      + intros v X. destruct (NA v X). }
  rewrite E1. destruct rs as [r|]; [|reflexivity]. cbn [fold_left]. unfold apply_fmtp. cbn [set_spec p_pt x pp_new].
  destruct (Z.eqb_spec r pt) as [Q|Q]; [exfalso; apply NR; eauto|]. cbn [fold_left p_pt]. rewrite Z.eqb_refl, (M r eq_refl). reflexivity.
Qed.

Lemma wire_key ps : (forall p, In p ps -> writable (p_spec p)) -> NoDup (numbers ps) -> map key (wire ps) = map key ps.
Proof.
  intros W N. unfold wire, rtp_params. rewrite !filter_map_flat.
  assert (EM : flat_map (fun a => filter_map map_of (as_media_attrs a)) ps = flat_map maps_p ps) by (apply flat_map_ext; intros; apply maps_attrs).
  assert (EF : flat_map (fun a => filter_map fmtp_of (as_media_attrs a)) ps = flat_map fm_p ps) by (apply flat_map_ext; intros; apply fm_attrs).
  rewrite EM, EF. rewrite statics_id by (intros pt; apply maps_has). rewrite av_maps by exact W.
  rewrite !map_map. apply map_ext_in. intros p I. rewrite fb_key.
  rewrite numbers_own in N.
  assert (M : forall r, p_resend p = Some r -> existsb (fun m : Z * (codec * Z * option Z) => (fst m =? r) && codec_beq (fst (fst (snd m))) Rtx) (flat_map maps_p ps) = true).
  { intros r E. apply existsb_exists. exists (r, (Rtx, rtp_clock (p_spec p), None)). split.
    - apply in_flat_map. exists p. split; [exact I|]. unfold maps_p. rewrite E. right. left. reflexivity.
    - cbn [fst snd]. rewrite Z.eqb_refl. reflexivity. }
  revert M. generalize (flat_map maps_p ps) as maps. intros maps M.
  apply in_split in I as (l1 & l2 & E). pose proof (W p) as Wp. rewrite E in Wp, N |- *. clear E W. specialize (Wp (in_elt _ _ _)).
  rewrite flat_map_app in N. cbn [flat_map] in N.
  apply NoDup_app_inv in N as (N1 & N2 & N3). apply NoDup_app_inv in N2 as (N4 & N5 & N6).
  assert (NR : ~ (exists r, p_resend p = Some r /\ r = p_pt p)).
  { intros (r & A & B). unfold own_pts in N4. rewrite A in N4. inversion N4 as [|? ? X Y]. apply X. left. exact B. }
  rewrite flat_map_app. cbn [flat_map]. rewrite !fold_left_app.
  assert (P : In (p_pt p) (own_pts p)) by (left; reflexivity).
  rewrite (fold_other maps l1).
  2:{ cbn [pp_new p_pt]. intros q Q X. apply (N3 (p_pt p)); [apply in_flat_map; eauto|]. apply in_or_app. left. exact P. }
  pose proof (own_key maps p Wp NR M) as OK. rewrite fold_other; [exact OK|].
  intros q Q. assert (EP : p_pt (fold_left (apply_fmtp maps) (fm_p p) (pp_new (p_pt p) (spec_of_map (s_codec (p_spec p)) (rtp_clock (p_spec p)) (s_channels (p_spec p))))) = p_pt p).
  { unfold key in OK. congruence. }
  rewrite EP. intros X. apply (N6 (p_pt p) P). apply in_flat_map. eauto.
Qed.

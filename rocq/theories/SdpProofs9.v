(** The media description of an offer, and the demonstration environment. *)
From Coq Require Import String Ascii Permutation.
From Verif Require Import Base BaseFacts PayModel PaySpec PrioModel TextModel TextFacts SdpModel SdpSpec SdpProofs1 SdpProofs2 SdpProofs3 SdpProofs4 SdpProofs5 SdpProofs6 SdpProofs7 SdpProofs8.

Lemma nodup_opt1 : forall A (o : option A) (f : A -> fparam) n rest,
  (forall v, fp_key (f v) = n) -> NoDup (map fp_key rest) -> (forall x, In x rest -> (n < fp_key x)%nat) ->
  NoDup (map fp_key (opt1 f o ++ rest)) .
Proof.
  intros A [v|] f n rest Hn N L; cbn [opt1 app map]; [|exact N]. constructor; [|exact N]. rewrite Hn. intro I.
  apply in_map_iff in I. destruct I as (x & E & I). specialize (L x I). lia.
Qed.
Definition small (k : nat) (l : list fparam) : Prop := NoDup (map fp_key l) /\ forall x, In x l -> (k < fp_key x)%nat.
Lemma small_opt : forall A (o : option A) (f : A -> fparam) k n rest, (k < n)%nat -> (forall v, fp_key (f v) = n) -> small n rest -> small k (opt1 f o ++ rest).
Proof.
  intros A o f k n rest H Hn [N L]. split; [apply nodup_opt1 with (n := n); assumption|].
  intros x I. apply in_app_or in I. destruct I as [I|I]; [|specialize (L x I); lia]. destruct o; [|destruct I].
  destruct I as [<-|[]]. rewrite Hn. exact H.
Qed.
Lemma fmt_keys : forall f, NoDup (map fp_key (to_format_param f)).
Proof.
  intro f. unfold to_format_param.
  assert (S0 : small 13 (opt1 SpropMaxDonDiff (f_don f))).
  { destruct (f_don f); split; cbn [opt1 map]; [apply NoDup_cons; [intros []|apply NoDup_nil] | intros x [<-|[]]; cbn; lia | apply NoDup_nil | intros x []]. }
  assert (S1 : small 12 (opt1 FH266 (f_h266 f) ++ opt1 SpropMaxDonDiff (f_don f))) by (apply small_opt with (n := 13%nat); [lia|reflexivity|exact S0]).
  pose proof (small_opt _ (f_h265 f) FH265 11 12 _ ltac:(lia) (fun _ => eq_refl) S1) as S2.
  pose proof (small_opt _ (f_tier f) Tier 10 11 _ ltac:(lia) (fun _ => eq_refl) S2) as S3.
  pose proof (small_opt _ (f_level_idx f) LevelIdx 9 10 _ ltac:(lia) (fun _ => eq_refl) S3) as S4.
  pose proof (small_opt _ (f_profile f) Profile 8 9 _ ltac:(lia) (fun _ => eq_refl) S4) as S5.
  pose proof (small_opt _ (f_pid f) ProfileId 7 8 _ ltac:(lia) (fun _ => eq_refl) S5) as S6.
  pose proof (small_opt _ (f_plid f) ProfileLevelId 6 7 _ ltac:(lia) (fun _ => eq_refl) S6) as S7.
  pose proof (small_opt _ (f_pmode f) PacketizationMode 5 6 _ ltac:(lia) (fun _ => eq_refl) S7) as S8.
  pose proof (small_opt _ (f_asym f) LevelAsymmetryAllowed 4 5 _ ltac:(lia) (fun _ => eq_refl) S8) as S9.
  pose proof (small_opt _ (f_dtx f) UseDtx 3 4 _ ltac:(lia) (fun _ => eq_refl) S9) as S10.
  pose proof (small_opt _ (f_fec f) UseInbandFec 2 3 _ ltac:(lia) (fun _ => eq_refl) S10) as S11.
  pose proof (small_opt _ (f_sprop_stereo f) SpropStereo 1 2 _ ltac:(lia) (fun _ => eq_refl) S11) as S12.
  pose proof (small_opt _ (f_stereo f) Stereo 0 1 _ ltac:(lia) (fun _ => eq_refl) S12) as [N13 L13].
  apply nodup_opt1 with (n := 0%nat); [reflexivity|exact N13|exact L13].
Qed.
Lemma opt1_ok : forall A (o : option A) (f : A -> fparam) (P : A -> Prop), (forall v, P v -> fp_ok (f v)) -> opt_all P o -> Forall fp_ok (opt1 f o).
Proof. intros A [v|] f P H O; cbn; constructor; [apply H; exact O|constructor]. Qed.
Lemma in_opt1 : forall A (o : option A) (f : A -> fparam) x, In x (opt1 f o) -> exists v, o = Some v /\ x = f v.
Proof. intros A [v|] f x I; cbn in I; [destruct I as [<-|[]]; eauto|destruct I]. Qed.
Lemma in_fmt : forall f x, In x (to_format_param f) -> match x with
  | FH265 p => f_h265 f = Some p | FH266 p => f_h266 f = Some p | ProfileId v => f_pid f = Some v | _ => True end.
Proof.
  intros f x I. unfold to_format_param in I. repeat (apply in_app_or in I; destruct I as [I|I]);
    apply in_opt1 in I; destruct I as (v & E & ->); try exact E; exact Logic.I.
Qed.
Lemma fmt_ok : forall p, wr_ok p -> fmtp_ok (to_format_param (s_fmt (p_spec p))).
Proof.
  intros p W. set (f := s_fmt (p_spec p)). split.
  - unfold to_format_param. rewrite !Forall_app. repeat match goal with |- _ /\ _ => split end;
      first [eapply opt1_ok; [|apply (wr_minptime p W)]; auto | eapply opt1_ok; [|apply (wr_pmode p W)]; auto
            |eapply opt1_ok; [|apply (wr_plid p W)]; auto | eapply opt1_ok; [|apply (wr_pid p W)]; auto
            |eapply opt1_ok; [|apply (wr_profile p W)]; auto | eapply opt1_ok; [|apply (wr_level_idx p W)]; auto
            |eapply opt1_ok; [|apply (wr_tier p W)]; auto | eapply opt1_ok; [|apply (wr_h265 p W)]; auto
            |eapply opt1_ok; [|apply (wr_h266 p W)]; auto | eapply opt1_ok; [|apply (wr_don p W)]; auto
            |apply (opt1_ok _ _ _ (fun _ => True)); [exact (fun _ _ => Logic.I)|match goal with |- opt_all _ ?o => destruct o; exact Logic.I end]].
  - destruct (wr_one p W) as [[A B]|[A B]]; fold f in A, B.
    + left. destruct (existsb is_ptl (to_format_param f)) eqn:E; [|reflexivity]. apply existsb_exists in E. destruct E as (x & I & P).
      apply in_fmt in I. destruct x; try discriminate; congruence.
    + right. split; [apply fmt_keys|]. split.
      * intros v I. apply in_fmt in I. congruence.
      * intros (a & b & I & J). apply in_fmt in I. apply in_fmt in J. destruct B; congruence.
Qed.
Lemma fb_line : forall v, v <> OtherFb -> line_text (show_fb v).
Proof.
  intros v N. split; [destruct v; try discriminate; congruence|]. apply Forall_forall. intros c Hc. apply not_eol_iff. revert c Hc. apply forallb_forall.
  destruct v; reflexivity.
Qed.
Lemma written_ok : forall p, wr_ok p -> Forall mattr_ok (map written (as_media_attrs p)).
Proof.
  intros p W. pose proof (fmt_ok p W) as F. unfold as_media_attrs. cbv zeta. rewrite !map_app, !Forall_app.
  assert (K : 1 <= rtp_clock (p_spec p) <= 4294967295).
  { unfold rtp_clock. destruct (codec_beq _ _); [lia|]. apply (wr_clock p W). }
  repeat match goal with |- _ /\ _ => split end;
    try (match goal with |- context [if ?b then _ else _] => destruct b; [|constructor] end;
         constructor; [|constructor]; split; [apply (wr_pt p W)|apply fb_line; discriminate]).
  - constructor; [|constructor]. cbn [written mattr_ok]. split; [apply (wr_pt p W)|]. split; [apply (wr_codec p W)|]. split; [exact K|].
    intros n E. pose proof (wr_channels p W) as C. rewrite E in C. exact C.
  - destruct (to_format_param (s_fmt (p_spec p))) as [|x l]; [constructor|]. constructor; [|constructor]. split; [apply (wr_pt p W)|exact F].
  - pose proof (wr_resend p W) as R. destruct (p_resend p) as [r|]; [|constructor]. constructor; [|constructor; [|constructor]].
    + cbn [written mattr_ok]. split; [exact R|]. split; [discriminate|]. split; [exact K|]. intros n E. discriminate.
    + cbn [written mattr_ok]. split; [exact R|]. split; [|left; reflexivity]. constructor; [|constructor]. cbn. pose proof (wr_pt p W) as Q. unfold pt_ok in Q. unfold u8. lia.
Qed.
Lemma all_written_ok : forall ps, Forall wr_ok ps -> Forall mattr_ok (map written (flat_map as_media_attrs ps)).
Proof.
  intros ps H. induction H as [|p ps Hp H IH]; [constructor|]. cbn [flat_map]. rewrite map_app. apply Forall_app. split; [apply written_ok; exact Hp|exact IH].
Qed.
(** counting *)
Lemma count_app : forall A (f : A -> bool) a b, count f (a ++ b) = count f a + count f b.
Proof. intros. unfold count, zlen. rewrite filter_app, app_length. lia. Qed.
Lemma map_count1 : forall p pt, count (is_map pt) (map written (as_media_attrs p)) = count (fun v => v =? pt) (own_pts p).
Proof.
  intros p pt. unfold as_media_attrs, own_pts. cbv zeta. rewrite !map_app, !count_app.
  assert (Z0 : forall (b : bool) v, count (is_map pt) (map written (if b then [RtcpFb (p_pt p) v] else [])) = 0) by (intros [] v; reflexivity).
  rewrite !Z0. replace (count (is_map pt) (map written match to_format_param (s_fmt (p_spec p)) with [] => [] | v => [Fmtp (p_pt p) v] end)) with 0
    by (destruct (to_format_param _); reflexivity).
  change (p_pt p :: match p_resend p with Some v => [v] | None => [] end) with ([p_pt p] ++ match p_resend p with Some v => [v] | None => [] end).
  rewrite count_app. unfold count, zlen. cbn [map written filter is_map].
  destruct (p_pt p =? pt), (p_resend p) as [r|]; cbn [map written filter is_map length]; try destruct (r =? pt); cbn [length]; lia.
Qed.
Lemma map_count : forall ps pt, count (is_map pt) (map written (flat_map as_media_attrs ps)) = count (fun v => v =? pt) (line_pts ps).
Proof.
  intros ps pt. unfold line_pts. induction ps as [|p ps IH]; [reflexivity|]. cbn [flat_map]. rewrite map_app, !count_app, IH, map_count1. reflexivity.
Qed.
Lemma count_nodup : forall l pt, NoDup l -> In pt l -> count (fun v => v =? pt) l = 1.
Proof.
  intros l pt N. induction N as [|x l M N IH]; intro I; [destruct I|]. unfold count, zlen in *. cbn [filter].
  destruct I as [->|I].
  - rewrite Z.eqb_refl. cbn [length]. replace (filter (fun v => v =? pt) l) with (@nil Z); [reflexivity|].
    symmetry. clear N IH. induction l as [|y l IHl]; [reflexivity|]. cbn [filter]. destruct (Z.eqb_spec y pt) as [->|]; [exfalso; apply M; left; reflexivity|].
    apply IHl. intro; apply M; right; assumption.
  - destruct (Z.eqb_spec x pt) as [->|]; [contradiction|]. apply IH. exact I.
Qed.
Lemma numbers_pts : forall ps, numbers ps = line_pts ps.
Proof.
  intro ps. unfold numbers, line_pts, own_pts. apply flat_map_ext. intro p. destruct (p_resend p); reflexivity.
Qed.
Lemma count_none : forall (f : mattr -> bool) ps, (forall a, f (written a) = false) -> count f (map written (flat_map as_media_attrs ps)) = 0.
Proof.
  intros f ps H. unfold count, zlen. induction (flat_map as_media_attrs ps) as [|a l IH]; [reflexivity|]. cbn [map filter]. rewrite H. exact IH.
Qed.
Lemma count_free : forall pt l, Forall codec_free l -> count (is_map pt) l = 0.
Proof.
  intros pt l H. unfold count, zlen. induction H as [|a l Ha H IH]; [reflexivity|]. cbn [filter]. destruct a; try exact IH. destruct Ha.
Qed.
Definition offer_line (t : mtype) (dis : bool) (bw : option bandwidth) (pre post : list mattr) (ps : list pp) : mline :=
  mkM t dis Srtp (line_pts ps) bw (pre ++ map written (flat_map as_media_attrs ps) ++ post).
Lemma offer_ok : forall t dis bw pre post ps, mtype_ok t -> t <> MTApp -> bw_ok bw -> ps <> [] ->
  Forall wr_ok ps -> NoDup (numbers ps) -> Forall mattr_ok (pre ++ post) -> Forall codec_free (pre ++ post) ->
  occurs a_mid (pre ++ post) 1 -> occurs a_dir (pre ++ post) 1 -> (exists n, occurs a_setup (pre ++ post) n /\ (n <= 1)%nat) ->
  mline_ok (offer_line t dis bw pre post ps).
Proof.
  intros t dis bw pre post ps Ht Na Hbw Ne W N Hok Hfree Hmid Hdir (n & Hset & Hn). rewrite numbers_pts in N.
  apply Forall_app in Hok. destruct Hok as [Ok1 Ok2]. apply Forall_app in Hfree. destruct Hfree as [F1 F2].
  assert (CNT : forall f : mattr -> bool, (forall a, f (written a) = false) ->
     count f (pre ++ map written (flat_map as_media_attrs ps) ++ post) = count f (pre ++ post)).
  { intros f H. rewrite !count_app, count_none by exact H. lia. }
  constructor; unfold offer_line; cbn [ml_typ ml_pts ml_bw ml_attrs ml_proto ml_disabled].
  - exact Ht.
  - unfold line_pts. apply Forall_forall. intros v I. apply in_flat_map in I. destruct I as (p & Ip & I). rewrite Forall_forall in W. specialize (W p Ip).
    pose proof (wr_pt p W) as A. pose proof (wr_resend p W) as B. unfold pt_ok, u8 in *. unfold own_pts in I. destruct I as [<-|I]; [lia|].
    destruct (p_resend p); cbn in B, I; [destruct I as [<-|[]]; lia|destruct I].
  - intro E. congruence.
  - exact Hbw.
  - rewrite !Forall_app. split; [exact Ok1|split; [apply all_written_ok; exact W|exact Ok2]].
  - constructor; cbn [ml_typ ml_pts ml_bw ml_attrs ml_proto ml_disabled].
    + apply (occurs_count _ is_mid); [exact mid_iff|]. rewrite CNT by (intros []; reflexivity). apply (proj1 (occurs_count _ is_mid _ _ _ mid_iff)); exact Hmid.
    + exists n. split; [|exact Hn]. apply (occurs_count _ is_setup); [exact setup_iff|]. rewrite CNT by (intros []; reflexivity). apply (proj1 (occurs_count _ is_setup _ _ _ setup_iff)); exact Hset.
    + intros _. apply (occurs_count _ is_dir); [exact dir_iff|]. rewrite CNT by (intros []; reflexivity). apply (proj1 (occurs_count _ is_dir _ _ _ dir_iff)); exact Hdir.
    + intros _. destruct ps; [congruence|discriminate].
    + intros pt I. left. apply (occurs_count _ (is_map pt)); [apply map_iff|]. rewrite !count_app, (count_free pt pre), (count_free pt post) by assumption. rewrite map_count, count_nodup by assumption. reflexivity.
Qed.
Lemma offer_seen : forall pre post ps pts, Forall codec_free (pre ++ post) ->
  rtp_params pts (map seen (pre ++ map written (flat_map as_media_attrs ps) ++ post)) = rtp_params pts (flat_map as_media_attrs ps).
Proof.
  intros pre post ps pts H. apply Forall_app in H. destruct H as [H1 H2].
  assert (FR : forall (B : Type) (f : attr -> option B) l, f OtherAttr = None -> Forall codec_free l -> filter_map f (map seen l) = []).
  { intros B f l E F. induction F as [|a l Ha F IH]; [reflexivity|]. cbn [map filter_map]. destruct a; cbn [seen]; try (rewrite E; exact IH); destruct Ha. }
  assert (FA : forall (A B : Type) (f : A -> option B) a b, filter_map f (a ++ b) = filter_map f a ++ filter_map f b).
  { intros A B f a b. induction a as [|x a IH]; [reflexivity|]. cbn [app filter_map]. rewrite IH. destruct (f x); reflexivity. }
  assert (W : map seen (map written (flat_map as_media_attrs ps)) = flat_map as_media_attrs ps).
  { clear. induction ps as [|p ps IH]; [reflexivity|]. cbn [flat_map]. rewrite !map_app, IH, as_media_seen. reflexivity. }
  rewrite !map_app, W. unfold rtp_params. rewrite !FA, !FR by (reflexivity || assumption). rewrite !app_nil_r. reflexivity.
Qed.

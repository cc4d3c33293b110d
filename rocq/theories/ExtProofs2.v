From Verif Require Import Base BaseFacts MtimeModel ExtModel ExtSpec ExtProofs.

Definition carry_all (E : Z) (e : extvals) (m : extmap) (acc : extvals) : extvals :=
  fold_left (fun acc o => match o with Some x => carry E e x acc | None => acc end) m acc.

Definition user_len (e : extvals) : Z := match user e with Some b => zlen b | None => 0 end.
Definition ubound (x : ext) (e : extvals) : Z := match x with EUser _ => user_len e | _ => 16 end.

Lemma write_ext_total x e cap : ev_ok e -> 16 <= cap -> ubound x e <= cap ->
  exists w, write_ext x e cap = Ok w /\ (forall bs, w = Some bs -> zlen bs <= ubound x e).
Proof.
  intros O C U. destruct O as [ok_audio0 ok_orient0 ok_content0 ok_tx0 ok_ast0 ok_act0 ok_tcc0 ok_dmin0 ok_dmax0 ok_vt0 ok_rid0 ok_rrid0 ok_mid0 ok_fm0 ok_user0].
  assert (forall bs, zlen bs <= ubound x e -> exists w, fits_in cap bs = Ok w /\ (forall bs, w = Some bs -> zlen bs <= ubound x e)) as F.
  { intros bs H. unfold fits_in. destruct (cap <? zlen bs) eqn:Q; [lia|]. eexists; split; [reflexivity|].
    intros c Hc. injection Hc as <-. exact H. }
  assert (exists w : option (list Z), Ok (@None (list Z)) = Ok w /\ (forall bs, w = Some bs -> zlen bs <= ubound x e)) as N.
  { eexists; split; [reflexivity|discriminate]. }
  unfold write_ext. destruct x; cbn [ubound] in *.
  - destruct (abs_send_time e); [|exact N]. apply F. discriminate.
  - destruct (abs_capture_time e) as [[ntp [off|]]|]; [| |exact N].
    + destruct (cap <? 16); [exact N|]. apply F. discriminate.
    + destruct (cap <? 8); [exact N|]. apply F. discriminate.
  - destruct (audio_level e), (voice_activity e); try exact N. apply F. discriminate.
  - destruct (tx_time_offs e); [|exact N]. apply F. discriminate.
  - destruct (video_orientation e); [|exact N]. apply F. discriminate.
  - destruct (transport_cc e); [|exact N]. apply F. discriminate.
  - destruct (play_delay_min e), (play_delay_max e); try exact N. apply F. discriminate.
  - destruct (video_content_type e); [|exact N]. apply F. discriminate.
  - destruct (video_timing e); [|exact N]. apply F. discriminate.
  - destruct (rid e); [|exact N]. apply F. destruct ok_rid0 as [? _]. lia.
  - destruct (rid_repair e); [|exact N]. apply F. destruct ok_rrid0 as [? _]. lia.
  - destruct (mid e); [|exact N]. apply F. destruct ok_mid0 as [? _]. lia.
  - destruct (frame_mark e); [|exact N]. apply F. discriminate.
  - exact N.
  - unfold user_len in *. destruct (user e) as [b|]; [|exact N]. destruct (zlen b =? 0); [exact N|]. apply F. lia.
Qed.

Fixpoint budget (m : extmap) (e : extvals) : Z :=
  match m with [] => 0 | None :: m' => budget m' e | Some x :: m' => 2 + ubound x e + budget m' e end.

Lemma ubound_nonneg x e : ev_ok e -> 0 <= ubound x e <= 255.
Proof.
  intros [? ? ? ? ? ? ? ? ? ? ? ? ? ? U]. unfold ubound, user_len. destruct x; try lia.
  destruct (user e); [destruct U; lia|lia].
Qed.
Lemma budget_nonneg e : ev_ok e -> forall m, 0 <= budget m e.
Proof.
  intros O. induction m as [|[x|] m IH]; cbn [budget]; try lia. pose proof (ubound_nonneg x e O). lia.
Qed.
Lemma budget_room e : ev_ok e -> forall m, budget m e <= 18 * zlen m + 260 * customs m.
Proof.
  intros O. unfold customs. induction m as [|[x|] m IH]; cbn [budget filter].
  - cbn. lia.
  - pose proof (ubound_nonneg x e O).
    destruct x; cbn [ubound] in *; rewrite !zlen_cons; lia.
  - rewrite zlen_cons. lia.
Qed.

(** ids and shapes *)
Lemma hdr1 id n : 1 <= id <= 14 -> 1 <= n <= 16 ->
  let b := Z.lor (Z.shiftl id 4 mod 256) (n - 1) in
  16 <= b < 240 /\ Z.shiftr b 4 = id /\ Z.land b 15 + 1 = n.
Proof.
  intros H1 H2 b. subst b. rewrite Z.shiftl_mul_pow2 by lia. change (2 ^ 4) with 16.
  rewrite (lor_add _ _ 4); [|lia|change (2^4) with 16; lia|change (2^4) with 16; dlia].
  rewrite Z.shiftr_div_pow2 by lia. change 15 with (2 ^ 4 - 1). rewrite land_mask by lia.
  change (2 ^ 4) with 16. dlia.
Qed.

Lemma lookup_at pre x post : length (pre ++ Some x :: post) = 16%nat ->
  lookup (pre ++ Some x :: post) (1 + zlen pre) = Some x.
Proof.
  intro L. rewrite app_length in L. cbn in L. unfold lookup, MAX_ID, zlen.
  destruct ((1 <=? 1 + Z.of_nat (length pre)) && (1 + Z.of_nat (length pre) <=? 16)) eqn:Q; [|lia].
  replace (Z.to_nat (1 + Z.of_nat (length pre) - 1)) with (length pre) by lia.
  rewrite nth_error_app2 by lia. rewrite Nat.sub_diag. reflexivity.
Qed.

Lemma parse_zeros E m f e : forall k fuel, (k < fuel)%nat -> parse_exts fuel E m f (repeat 0 k) e = Ok e.
Proof.
  induction k as [|k IH]; intros [|fuel] H; try lia; [reflexivity|].
  cbn [parse_exts repeat]. destruct (zlen (0 :: repeat 0 k) =? 0) eqn:Q.
  { reflexivity. }
  ridx. cbv iota. change (0 =? 0) with true. cbv iota.
  change (0 :: repeat 0 k) with ([0] ++ repeat 0 k). change 1 with (zlen [0]) at 1. rewrite from_app. cbn [bind]. apply IH. lia.
Qed.

Definition small_user (m : extmap) (e : extvals) : Prop :=
  forall two, In (Some (EUser two)) m -> user_len e <= 16.

Lemma write_parse E e f M (OK : ev_ok e) (L : length M = 16%nat) : forall m' pre cap,
  M = pre ++ m' ->
  (f = OneByte -> any_two (1 + zlen pre) m' = false /\ small_user m' e) ->
  budget m' e + 18 <= cap ->
  exists bs, write_exts (1 + zlen pre) m' e f cap = Ok bs /\ bytes_ok bs /\ zlen bs <= budget m' e /\
    forall k fuel acc, (length bs + k < fuel)%nat ->
      parse_exts fuel E M f (bs ++ repeat 0 k) acc = Ok (carry_all E e m' acc).
Proof.
  induction m' as [|o m' IH]; intros pre cap EM HF HB.
  - exists []. split; [reflexivity|]. split; [constructor|]. split; [cbn; lia|].
    intros k fuel acc H. cbn [app]. rewrite parse_zeros by lia. reflexivity.
  - assert (M = (pre ++ [o]) ++ m') as EM' by (rewrite <- app_assoc; exact EM).
    assert (1 + zlen pre + 1 = 1 + zlen (pre ++ [o])) as EI by (rewrite zlen_app, zlen_cons, zlen_nil; lia).
    assert (f = OneByte -> any_two (1 + zlen (pre ++ [o])) m' = false /\ small_user m' e) as HF'.
    { intro F. destruct (HF F) as [A B]. cbn [any_two] in A. apply orb_false_elim in A as [_ A].
      rewrite EI in A. split; [exact A|]. intros two I. apply (B two). right. exact I. }
    assert (1 <= 1 + zlen pre <= 16) as IDR.
    { subst M. rewrite app_length in L. cbn in L. unfold zlen. lia. }
    destruct o as [x|].
    2:{ cbn [budget] in HB. destruct (IH (pre ++ [None]) cap EM' HF' HB) as (bs & W & B & Z & P).
        exists bs. cbn [write_exts]. rewrite EI. split; [exact W|]. split; [exact B|]. split; [exact Z|].
        intros. rewrite P by assumption. reflexivity. }
    cbn [budget] in HB. pose proof (ubound_nonneg x e OK) as UN. pose proof (budget_nonneg e OK m') as BN.
    pose proof (lookup_at pre x m' ltac:(rewrite <- EM; exact L)) as LK. rewrite <- EM in LK.
    assert (forall c, budget m' e + 18 <= c -> exists bs, write_exts (1 + zlen pre + 1) m' e f c = Ok bs /\ bytes_ok bs /\
        zlen bs <= budget m' e /\ forall k fuel acc, (length bs + k < fuel)%nat ->
      parse_exts fuel E M f (bs ++ repeat 0 k) acc = Ok (carry_all E e m' acc)) as IH'.
    { intros c Hc. rewrite EI. apply IH; auto. }
    clear IH. cbn [write_exts carry_all fold_left budget].
    (* common last step: after the element header, the value and the rest *)
    assert (forall bs (r : list Z) k fuel acc, bytes_ok bs -> parse_value E x bs acc = Ok (carry E e x acc) ->
       (length r + k < fuel)%nat ->
       (forall k fuel acc, (length r + k < fuel)%nat ->
          parse_exts fuel E M f (r ++ repeat 0 k) acc = Ok (carry_all E e m' acc)) ->
       (if zlen (bs ++ r ++ repeat 0 k) <? zlen bs then Ok acc else
          do eb <- upto (bs ++ r ++ repeat 0 k) (zlen bs);
          do e' <- match lookup M (1 + zlen pre) with Some x => parse_value E x eb acc | None => Ok acc end;
          do buf' <- from (bs ++ r ++ repeat 0 k) (zlen bs); parse_exts fuel E M f buf' e')
        = Ok (carry_all E e m' (carry E e x acc))) as STEP.
    { intros bs r k fuel acc B PV LE P. destruct (zlen (bs ++ r ++ repeat 0 k) <? zlen bs) eqn:Q.
      { rewrite zlen_app in Q. pose proof (zlen_nonneg (r ++ repeat 0 k)). lia. }
      rewrite upto_app. cbn [bind]. rewrite LK, PV. cbn [bind]. rewrite from_app. cbn [bind].
      apply P. exact LE. }
    destruct f.
    + destruct (HF eq_refl) as [A B]. cbn [any_two] in A. apply orb_false_elim in A as [A _].
      assert (1 + zlen pre <= 14) as ID14.
      { unfold needs_two in A. destruct x; lia. }
      assert (ubound x e <= 16) as U16'.
      { destruct x; cbn [ubound]; try lia. apply (B two). left. reflexivity. }
      destruct (cap <? 1) eqn:Q; [lia|].
      destruct (write_ext_total x e (cap - 1) OK ltac:(lia) ltac:(lia)) as (w & W & WL). rewrite W. cbn [bind].
      destruct w as [bs|].
      2:{ destruct (IH' cap ltac:(lia)) as (r & R1 & R2 & R3 & R4). exists r. split; [exact R1|].
          split; [exact R2|]. split; [lia|]. intros k fuel acc H. rewrite R4 by assumption.
          destruct (roundtrip_value E x e (cap - 1) acc None OK W) as [_ N].
          rewrite (N eq_refl ltac:(lia)). reflexivity. }
      specialize (WL bs eq_refl).
      destruct (roundtrip_value E x e (cap - 1) ev0 (Some bs) OK W) as [N _].
      destruct (N bs eq_refl) as (BO & BP & _). clear N.
      destruct ((16 <? zlen bs) || (zlen bs <? 1)) eqn:Q2; [lia|].
      destruct (IH' (cap - 1 - zlen bs) ltac:(lia)) as (r & R1 & R2 & R3 & R4). rewrite R1. cbn [bind].
      destruct (hdr1 (1 + zlen pre) (zlen bs) ltac:(lia) ltac:(lia)) as (H1 & H2 & H3).
      set (h := Z.lor (Z.shiftl (1 + zlen pre) 4 mod 256) (zlen bs - 1)) in *. clearbody h.
      exists (h :: bs ++ r). split; [reflexivity|].
      split; [apply bytes_ok_cons; split; [unfold byte_ok; lia|apply bytes_ok_app; split; assumption]|].
      split; [rewrite zlen_cons, zlen_app; lia|].
      intros k fuel acc HL. destruct fuel as [|fuel]; [lia|]. cbn [parse_exts app].
      rewrite zlen_cons. destruct (1 + zlen ((bs ++ r) ++ repeat 0 k) =? 0) eqn:Q3.
      { pose proof (zlen_nonneg ((bs ++ r) ++ repeat 0 k)). lia. }
      ridx. destruct (h =? 0) eqn:Q4; [lia|].
      change (h :: (bs ++ r) ++ repeat 0 k) with ([h] ++ (bs ++ r) ++ repeat 0 k).
      change 1 with (zlen [h]) at 1. rewrite from_app. cbn [bind]. rewrite H2.
      destruct (1 + zlen pre =? 15) eqn:Q5; [lia|]. rewrite H3. rewrite <- app_assoc.
      apply STEP; auto.
      * destruct (roundtrip_value E x e (cap - 1) acc (Some bs) OK W) as [N _]. apply (N bs eq_refl).
      * cbn [length] in HL. rewrite app_length in HL. lia.
    + destruct (cap <? 2) eqn:Q; [lia|].
      destruct (write_ext_total x e (cap - 2) OK ltac:(lia) ltac:(lia)) as (w & W & WL). rewrite W. cbn [bind].
      destruct w as [bs|].
      2:{ destruct (IH' cap ltac:(lia)) as (r & R1 & R2 & R3 & R4). exists r. split; [exact R1|].
          split; [exact R2|]. split; [lia|]. intros k fuel acc H. rewrite R4 by assumption.
          destruct (roundtrip_value E x e (cap - 2) acc None OK W) as [_ N].
          rewrite (N eq_refl ltac:(lia)). reflexivity. }
      specialize (WL bs eq_refl).
      destruct (roundtrip_value E x e (cap - 2) ev0 (Some bs) OK W) as [N _].
      destruct (N bs eq_refl) as (BO & BP & _). clear N.
      destruct (IH' (cap - 2 - zlen bs) ltac:(lia)) as (r & R1 & R2 & R3 & R4). rewrite R1. cbn [bind].
      rewrite (Z.mod_small (1 + zlen pre)) by lia. rewrite (Z.mod_small (zlen bs)) by lia.
      exists (1 + zlen pre :: zlen bs :: bs ++ r). split; [reflexivity|].
      split. { apply bytes_ok_cons; split; [unfold byte_ok; lia|]. apply bytes_ok_cons; split; [unfold byte_ok; lia|apply bytes_ok_app; split; assumption]. }
      split; [rewrite !zlen_cons, zlen_app; lia|].
      intros k fuel acc HL. destruct fuel as [|fuel]; [lia|]. cbn [parse_exts app].
      pose proof (zlen_nonneg ((bs ++ r) ++ repeat 0 k)) as NN.
      rewrite !zlen_cons. destruct (1 + (1 + zlen ((bs ++ r) ++ repeat 0 k)) =? 0) eqn:Q3; [lia|].
      ridx. destruct (1 + zlen pre =? 0) eqn:Q4; [lia|].
      destruct (1 + (1 + zlen ((bs ++ r) ++ repeat 0 k)) <? 2) eqn:Q5; [lia|].
      change (1 + zlen pre :: zlen bs :: (bs ++ r) ++ repeat 0 k) with ([1 + zlen pre; zlen bs] ++ (bs ++ r) ++ repeat 0 k).
      change 2 with (zlen [1 + zlen pre; zlen bs]) at 1. rewrite from_app. cbn [bind]. rewrite <- app_assoc.
      apply STEP; auto.
      * destruct (roundtrip_value E x e (cap - 2) acc (Some bs) OK W) as [N _]. apply (N bs eq_refl).
      * cbn [length] in HL. rewrite app_length in HL. lia.
Qed.

(** * The accumulated record is the one the specification describes *)
Definition ors {A} (b : bool) (o p : option A) : option A :=
  if b then match o with Some a => Some a | None => p end else p.

Ltac field_tac m E e :=
  induction m as [|o m' IH]; intro acc; [reflexivity|]; rename m' into m;
  cbn [carry_all fold_left]; change (fold_left _ m ?a) with (carry_all E e m a); rewrite IH; clear IH;
  unfold mapped, ors; cbn [existsb];
  destruct o as [[]|]; cbn [orb carry]; try reflexivity;
  repeat match goal with |- context [existsb ?f m] => destruct (existsb f m) end;
  repeat match goal with |- context [match ?o with Some _ => _ | None => _ end] => 
    match o with context [match _ with _ => _ end] => fail 1 | _ => destruct o eqn:? end end; cbn; try reflexivity; try congruence.

Section Fields.
Variable E : Z. Variable e : extvals.
Lemma f_orient m : forall acc, video_orientation (carry_all E e m acc) = ors (mapped VideoOrientation m) (video_orientation e) (video_orientation acc).
Proof. field_tac m E e. Qed.
Lemma f_content m : forall acc, video_content_type (carry_all E e m acc) = ors (mapped VideoContentType m) (video_content_type e) (video_content_type acc).
Proof. field_tac m E e. Qed.
Lemma f_tx m : forall acc, tx_time_offs (carry_all E e m acc) = ors (mapped TransmissionTimeOffset m) (tx_time_offs e) (tx_time_offs acc).
Proof. field_tac m E e. Qed.
Lemma f_ast m : forall acc, abs_send_time (carry_all E e m acc) = ors (mapped AbsoluteSendTime m) (option_map (arrives_ast E) (abs_send_time e)) (abs_send_time acc).
Proof. unfold option_map. field_tac m E e. Qed.
Lemma f_act m : forall acc, abs_capture_time (carry_all E e m acc) = ors (mapped AbsoluteCaptureTime m) (abs_capture_time e) (abs_capture_time acc).
Proof. field_tac m E e. Qed.
Lemma f_tcc m : forall acc, transport_cc (carry_all E e m acc) = ors (mapped TransportSequenceNumber m) (transport_cc e) (transport_cc acc).
Proof. field_tac m E e. Qed.
Lemma f_vt m : forall acc, video_timing (carry_all E e m acc) = ors (mapped VideoTiming m) (video_timing e) (video_timing acc).
Proof. field_tac m E e. Qed.
Lemma f_rid m : forall acc, rid (carry_all E e m acc) = ors (mapped RtpStreamId m) (rid e) (rid acc).
Proof. field_tac m E e. Qed.
Lemma f_rrid m : forall acc, rid_repair (carry_all E e m acc) = ors (mapped RepairedRtpStreamId m) (rid_repair e) (rid_repair acc).
Proof. field_tac m E e. Qed.
Lemma f_mid m : forall acc, mid (carry_all E e m acc) = ors (mapped RtpMid m) (mid e) (mid acc).
Proof. field_tac m E e. Qed.
Lemma f_fm m : forall acc, frame_mark (carry_all E e m acc) = ors (mapped FrameMarking m) (frame_mark e) (frame_mark acc).
Proof. field_tac m E e. Qed.
Lemma f_user m : forall acc, user (carry_all E e m acc) = ors (mapped (EUser true) m) (user e) (user acc).
Proof. field_tac m E e. Qed.
Lemma f_audio m : forall acc, audio_level (carry_all E e m acc) = ors (mapped AudioLevel m) (both (audio_level e) (voice_activity e) (fun l v => l)) (audio_level acc).
Proof. unfold both. field_tac m E e. Qed.
Lemma f_vad m : forall acc, voice_activity (carry_all E e m acc) = ors (mapped AudioLevel m) (both (audio_level e) (voice_activity e) vad_real) (voice_activity acc).
Proof. unfold both. field_tac m E e. Qed.
Lemma f_dmin m : forall acc, play_delay_min (carry_all E e m acc) = ors (mapped PlayoutDelay m) (both (play_delay_min e) (play_delay_max e) (fun a b => hundredths a)) (play_delay_min acc).
Proof. unfold both. field_tac m E e. Qed.
Lemma f_dmax m : forall acc, play_delay_max (carry_all E e m acc) = ors (mapped PlayoutDelay m) (both (play_delay_min e) (play_delay_max e) (fun a b => hundredths b)) (play_delay_max acc).
Proof. unfold both. field_tac m E e. Qed.

Lemma ors_none {A} b (o : option A) : ors b o None = when b o.
Proof. unfold ors, when. destruct b, o; reflexivity. Qed.

Lemma carry_all_arrives m : carry_all E e m ev0 = arrives vad_real E m e.
Proof.
  unfold arrives. rewrite <- !ors_none.
  change (@None Z) with (audio_level ev0) at 1.
  rewrite <- (f_audio m ev0). change (@None bool) with (voice_activity ev0) at 1. rewrite <- (f_vad m ev0).
  change (@None Z) with (video_orientation ev0) at 1. rewrite <- (f_orient m ev0).
  change (@None Z) with (video_content_type ev0) at 1. rewrite <- (f_content m ev0).
  change (@None Z) with (tx_time_offs ev0) at 1. rewrite <- (f_tx m ev0).
  change (@None Z) with (abs_send_time ev0) at 1. rewrite <- (f_ast m ev0).
  change (@None (Z * option Z)) with (abs_capture_time ev0) at 1. rewrite <- (f_act m ev0).
  change (@None Z) with (transport_cc ev0) at 1. rewrite <- (f_tcc m ev0).
  change (@None mtime) with (play_delay_min ev0) at 1. rewrite <- (f_dmin m ev0).
  change (@None mtime) with (play_delay_max ev0) at 1. rewrite <- (f_dmax m ev0).
  change (@None vtiming) with (video_timing ev0) at 1. rewrite <- (f_vt m ev0).
  change (@None (list Z)) with (rid ev0) at 1. rewrite <- (f_rid m ev0).
  change (@None (list Z)) with (rid_repair ev0) at 1. rewrite <- (f_rrid m ev0).
  change (@None (list Z)) with (mid ev0) at 1. rewrite <- (f_mid m ev0).
  change (@None Z) with (frame_mark ev0) at 1. rewrite <- (f_fm m ev0).
  change (@None (list Z)) with (user ev0) at 1. rewrite <- (f_user m ev0).
  destruct (carry_all E e m ev0). reflexivity.
Qed.
End Fields.

Lemma form_one m : form_of m = OneByte -> any_two 1 m = false.
Proof. unfold form_of. destruct (any_two 1 m); congruence. Qed.

Lemma any_two_user m : forall id, any_two id m = false -> ~ In (Some (EUser true)) m.
Proof.
  induction m as [|o m IH]; intros id H I; [destruct I|]. cbn [any_two] in H. apply orb_false_elim in H as [H1 H2].
  destruct I as [->|I]; [|exact (IH _ H2 I)]. cbn in H1. rewrite orb_true_r in H1. discriminate.
Qed.

Lemma exts_roundtrip E e m cap (OK : ev_ok e) : map_ok m e -> room m <= cap ->
  exists bs, write_exts 1 m e (form_of m) cap = Ok bs /\ bytes_ok bs /\ zlen bs <= room m /\
    forall k fuel, (length bs + k < fuel)%nat ->
      parse_exts fuel E m (form_of m) (bs ++ repeat 0 k) ev0 = Ok (arrives vad_real E m e).
Proof.
  intros [L U] R. pose proof (budget_room e OK m) as BR. unfold zlen in BR. rewrite L in BR. unfold room in *.
  change 1 with (1 + zlen (@nil (option ext))).
  destruct (write_parse E e (form_of m) m OK L m [] cap eq_refl) as (bs & W & B & Z & P).
  - intros F. apply form_one in F. split; [exact F|]. intros two I. pose proof (any_two_user _ _ F) as NT.
    destruct (U two I) as [->|X]; [contradiction|]. unfold user_len. destruct (user e); [exact X|lia].
  - lia.
  - exists bs. split; [exact W|]. split; [exact B|]. split; [lia|].
    intros. rewrite P by assumption. rewrite carry_all_arrives. reflexivity.
Qed.

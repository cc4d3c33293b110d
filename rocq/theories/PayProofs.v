(** Facts about the match score. *)
From Coq Require Import String Ascii Permutation.
From Verif Require Import Base BaseFacts Brute PayModel PaySpec.

Lemma codec_beq_iff a b : codec_beq a b = true <-> a = b.
Proof. split; [apply internal_codec_dec_bl | apply internal_codec_dec_lb]. Qed.
Lemma h264_beq_iff a b : h264profile_beq a b = true <-> a = b.
Proof. split; [apply internal_h264profile_dec_bl | apply internal_h264profile_dec_lb]. Qed.
Lemma oeqb_iff {A} (d : forall x y : A, {x = y} + {x <> y}) a b : oeqb d a b = true <-> a = b.
Proof. unfold oeqb. destruct (opt_eq_dec d a b); split; congruence. Qed.

(** The profile table is RFC 6184's. *)
Lemma profile_table idc iop : 0 <= idc < 256 -> 0 <= iop < 256 ->
  (if existsb (Z.eqb idc) h264_idcs then h264_profile_of idc iop else None) = rfc6184_profile idc iop.
Proof.
  intros A B.
  assert (K : forall P : Z -> Z -> bool,
     forallb (fun a => forallb (P a) (zseq 0 256)) (zseq 0 256) = true -> P idc iop = true).
  { intros P E. rewrite forallb_forall in E.
    assert (Ia : In idc (zseq 0 256)) by (apply zseq_in; lia).
    assert (Ib : In iop (zseq 0 256)) by (apply zseq_in; lia).
    specialize (E _ Ia). rewrite forallb_forall in E. exact (E _ Ib). }
  specialize (K (fun a b => oeqb h264profile_eq_dec (if existsb (Z.eqb a) h264_idcs then h264_profile_of a b else None) (rfc6184_profile a b))).
  apply oeqb_iff in K; [exact K|]. vm_compute. reflexivity.
Qed.

Lemma h264_pl_profile f :
  match h264_pl f with Some (p, _) => h264_profile f = Some p | None => h264_profile f = None end.
Proof.
  unfold h264_pl, h264_profile, h264_parse. destruct (f_plid f) as [v|]; [|reflexivity].
  assert (A : 0 <= (v / 65536) mod 256 < 256) by (apply Z.mod_pos_bound; lia).
  assert (B : 0 <= (v / 256) mod 256 < 256) by (apply Z.mod_pos_bound; lia).
  assert (C : 0 <= v mod 256 < 256) by (apply Z.mod_pos_bound; lia).
  rewrite <- (profile_table _ _ A B). revert A B C.
  generalize ((v / 65536) mod 256) ((v / 256) mod 256) (v mod 256). intros idc iop lv A B C.
  assert (L : is_some (h264_level_ord lv) = existsb (Z.eqb lv) levels264).
  { assert (K : forall P : Z -> bool, forallb P (zseq 0 256) = true -> P lv = true).
    { intros P E. rewrite forallb_forall in E. apply E. apply zseq_in. lia. }
    specialize (K (fun n => Bool.eqb (is_some (h264_level_ord n)) (existsb (Z.eqb n) levels264))).
    apply Bool.eqb_prop, K. vm_compute. reflexivity. }
  destruct (existsb (Z.eqb idc) h264_idcs); cbn [negb];
    destruct (h264_level_ord lv) as [n|]; cbn [is_some] in L; rewrite <- L; try reflexivity.
  destruct (h264_profile_of idc iop); reflexivity.
Qed.

Lemma score_h264_iff f g : score_h264 f g <> None <->
  dflt 0 (f_pmode f) = dflt 0 (f_pmode g) /\ h264_profile f = h264_profile g /\ h264_profile f <> None.
Proof.
  unfold score_h264. pose proof (h264_pl_profile f) as F. pose proof (h264_pl_profile g) as G.
  destruct (Z.eqb_spec (dflt 0 (f_pmode f)) (dflt 0 (f_pmode g))) as [E|E]; cbn [negb]; [|split; [congruence|tauto]].
  destruct (h264_pl f) as [[p l]|]; destruct (h264_pl g) as [[q m]|]; rewrite F, G.
  - destruct (h264profile_beq p q) eqn:X.
    + apply h264_beq_iff in X. subst. split; [intros _; repeat split; auto; discriminate | discriminate].
    + cbn [negb]. split; [congruence|]. intros (_ & Y & _). assert (p = q) by congruence. subst.
      rewrite (proj2 (h264_beq_iff q q) eq_refl) in X. discriminate.
  - split; [congruence|]. intros (_ & Y & _). discriminate.
  - split; [congruence|]. intros (_ & _ & Y). congruence.
  - split; [congruence|]. intros (_ & _ & Y). congruence.
Qed.

Lemma score_h26x_iff a b i j : score_h26x a b i j <> None <-> same_profile a b i j.
Proof.
  unfold score_h26x, same_profile, profile_only, profile_of, fallback_profile.
  destruct a as [a|]; destruct b as [b|].
  - destruct (Z.eqb_spec (pl_profile a) (pl_profile b)); cbn [negb]; [|split; [congruence|tauto]].
    destruct (Z.eqb_spec (pl_tier a) (pl_tier b)); cbn [negb]; split; try congruence; try tauto; discriminate.
  - destruct j as [j|]; (destruct (Z.eqb_spec (pl_profile a) (j mod 256)) || destruct (Z.eqb_spec (pl_profile a) 1)); cbn [negb];
      split; try congruence; try tauto; discriminate.
  - destruct i as [i|]; (destruct (Z.eqb_spec (i mod 256) (pl_profile b)) || destruct (Z.eqb_spec 1 (pl_profile b))); cbn [negb];
      split; try congruence; try tauto; discriminate.
  - destruct i as [i|]; destruct j as [j|];
      match goal with |- context[negb (?u =? ?v)] => destruct (Z.eqb_spec u v) end; cbn [negb];
      split; try congruence; try tauto; discriminate.
Qed.

Lemma score_iff s t : score s t <> None <-> compatible s t.
Proof.
  unfold score, compatible. destruct (spec_eq_dec s t) as [E|E]; [split; [auto|discriminate]|].
  destruct (codec_beq (s_codec s) (s_codec t)) eqn:C; cbn [negb orb].
  2:{ split; [congruence|]. intros [X|(X & _)]; [tauto|]. apply codec_beq_iff in X. congruence. }
  apply codec_beq_iff in C.
  destruct (codec_beq (s_codec s) Unknown && codec_beq (s_codec t) Unknown) eqn:U.
  { split; [congruence|]. intros [X|(_ & _ & _ & X)]; [tauto|]. apply andb_true_iff in U as [U _].
    apply codec_beq_iff in U. rewrite U in X. destruct X. }
  destruct (Z.eqb_spec (s_clock s) (s_clock t)) as [K|K]; cbn [negb]; [|split; [congruence|tauto]].
  destruct (oeqb Z.eq_dec (s_channels s) (s_channels t)) eqn:H.
  2:{ cbn [negb]. split; [congruence|]. intros [X|(_ & _ & X & _)]; [tauto|]. apply (oeqb_iff Z.eq_dec) in X. congruence. }
  apply oeqb_iff in H. cbn [negb].
  assert (G : (s = t \/ s_codec s = s_codec t /\ s_clock s = s_clock t /\ s_channels s = s_channels t /\
              formats_agree (s_codec s) (s_fmt s) (s_fmt t)) <-> formats_agree (s_codec s) (s_fmt s) (s_fmt t)) by tauto.
  rewrite G. unfold formats_agree. destruct (s_codec s) eqn:D; try (split; [congruence|tauto]).
  - split; [auto|discriminate].
  - apply score_h264_iff.
  - apply score_h26x_iff.
  - apply score_h26x_iff.
  - unfold score_vp9. destruct (Z.eqb_spec (dflt 0 (f_pid (s_fmt s))) (dflt 0 (f_pid (s_fmt t)))); cbn [negb]; split; congruence.
  - unfold score_av1. destruct (Z.eqb_spec (dflt 0 (f_profile (s_fmt s))) (dflt 0 (f_profile (s_fmt t)))); cbn [negb]; [|split; [congruence|tauto]].
    destruct (Z.eqb_spec (dflt 5 (f_level_idx (s_fmt s))) (dflt 5 (f_level_idx (s_fmt t)))); cbn [negb]; [|split; [congruence|tauto]].
    destruct (Z.eqb_spec (dflt 0 (f_tier (s_fmt s))) (dflt 0 (f_tier (s_fmt t)))); cbn [negb]; split; try congruence; tauto.
Qed.

(** Symmetry of the score itself *)
Lemma oeqb_sym {A} (d : forall x y : A, {x = y} + {x <> y}) a b : oeqb d a b = oeqb d b a.
Proof. unfold oeqb. destruct (opt_eq_dec d a b), (opt_eq_dec d b a); congruence. Qed.
Lemma codec_beq_sym a b : codec_beq a b = codec_beq b a.
Proof. destruct a, b; reflexivity. Qed.
Lemma h264_beq_sym a b : h264profile_beq a b = h264profile_beq b a.
Proof. destruct a, b; reflexivity. Qed.
Lemma eqb_sym' a b : Bool.eqb a b = Bool.eqb b a.
Proof. destruct a, b; reflexivity. Qed.
Lemma abs_sub_comm a b : Z.abs (a - b) = Z.abs (b - a).
Proof. lia. Qed.
Lemma score_h26x_sym a b i j : score_h26x a b i j = score_h26x b a j i.
Proof.
  unfold score_h26x. destruct a as [a|]; destruct b as [b|];
    rewrite ?(Z.eqb_sym (pl_profile a)), ?(Z.eqb_sym (pl_tier a)), ?(abs_sub_comm (pl_level a));
    try reflexivity; rewrite (Z.eqb_sym (profile_only _ _)); reflexivity.
Qed.
Lemma score_h264_sym a b : score_h264 a b = score_h264 b a.
Proof.
  unfold score_h264. rewrite (Z.eqb_sym (dflt 0 (f_pmode a))).
  destruct (h264_pl a) as [[p l]|]; destruct (h264_pl b) as [[q m]|]; try reflexivity.
  rewrite (h264_beq_sym p q), (abs_sub_comm l m). reflexivity.
Qed.
Lemma score_opus_sym a b : score_opus a b = score_opus b a.
Proof.
  unfold score_opus.
  rewrite (oeqb_sym _ (f_minptime a)), (oeqb_sym _ (f_fec a)), (oeqb_sym _ (f_dtx a)),
    (eqb_sym' (dflt false (f_stereo a))), (eqb_sym' (dflt false (f_sprop_stereo a))),
    (orb_comm (is_some (f_minptime a))), (orb_comm (is_some (f_fec a))), (orb_comm (is_some (f_dtx a))).
  reflexivity.
Qed.
Lemma score_sym s t : score s t = score t s.
Proof.
  unfold score. destruct (spec_eq_dec s t) as [E|E]; destruct (spec_eq_dec t s) as [F|F]; try congruence; try reflexivity.
  rewrite (codec_beq_sym (s_codec s)), (andb_comm (codec_beq (s_codec s) Unknown)), (Z.eqb_sym (s_clock s)), (oeqb_sym _ (s_channels s)).
  destruct (codec_beq (s_codec t) (s_codec s)) eqn:C; [|reflexivity].
  apply codec_beq_iff in C. rewrite C. cbn [negb orb].
  destruct (_ && _); [reflexivity|]. destruct (negb _); [reflexivity|]. destruct (negb (oeqb _ _ _)); [reflexivity|].
  destruct (s_codec s); try reflexivity.
  - rewrite score_opus_sym. reflexivity.
  - apply score_h264_sym.
  - apply score_h26x_sym.
  - apply score_h26x_sym.
  - unfold score_vp9. rewrite Z.eqb_sym. reflexivity.
  - unfold score_av1. rewrite (Z.eqb_sym (dflt 0 (f_profile (s_fmt s)))), (Z.eqb_sym (dflt 5 (f_level_idx (s_fmt s)))), (Z.eqb_sym (dflt 0 (f_tier (s_fmt s)))). reflexivity.
Qed.
Lemma ssub_range a b : 0 <= a <= 100 -> 0 <= b -> 0 <= ssub a b <= 100.
Proof. unfold ssub. lia. Qed.
Lemma score_range s t v : score s t = Some v -> 0 <= v <= 100.
Proof.
  unfold score. destruct (spec_eq_dec s t); [intros [= <-]; lia|].
  destruct (_ || _); [discriminate|]. destruct (negb (_ =? _)); [discriminate|]. destruct (negb _); [discriminate|].
  destruct (s_codec s); try discriminate.
  - intros [= <-]. unfold score_opus.
    repeat (match goal with |- context[if ?b then _ else _] => destruct b end); unfold ssub; lia.
  - unfold score_h264. destruct (negb _); [discriminate|]. destruct (h264_pl _) as [[? ?]|]; [|discriminate].
    destruct (h264_pl _) as [[? ?]|]; [|discriminate]. destruct (negb _); [discriminate|].
    intros [= <-]. unfold ssub. lia.
  - unfold score_h26x. destruct (f_h265 _), (f_h265 _); repeat (destruct (negb _); [discriminate|]);
      intros [= <-]; unfold ssub; lia.
  - unfold score_h26x. destruct (f_h266 _), (f_h266 _); repeat (destruct (negb _); [discriminate|]);
      intros [= <-]; unfold ssub; lia.
  - unfold score_vp9. destruct (negb _); [discriminate|]. intros [= <-]. lia.
  - unfold score_av1. repeat (destruct (negb _); [discriminate|]). intros [= <-]. lia.
Qed.
Lemma compat_sym s t : compatible s t -> compatible t s.
Proof. rewrite <- !score_iff, score_sym. auto. Qed.
Lemma compat_refl s : compatible s s.
Proof. left. reflexivity. Qed.
Lemma compat_codec s t : compatible s t -> s_codec s = s_codec t.
Proof. intros [->|(E & _)]; auto. Qed.

(** Negotiated specifications *)
Definition base_eq (s t : spec) : Prop := s_codec s = s_codec t /\ s_clock s = s_clock t /\ s_channels s = s_channels t.
Definition full_of (s : spec) : option ptl := match s_codec s with H265 => f_h265 (s_fmt s) | H266 => f_h266 (s_fmt s) | _ => None end.
Definition is_h26 (s : spec) : Prop := s_codec s = H265 \/ s_codec s = H266.
Definition sp (s t : spec) : Prop := same_profile (full_of s) (full_of t) (f_pid (s_fmt s)) (f_pid (s_fmt t)).
Lemma same_profile_refl a i : same_profile a a i i.
Proof. split; [reflexivity|]. destruct a; auto. Qed.
Lemma compat_h26 s t : is_h26 s -> (compatible s t <-> base_eq s t /\ sp s t).
Proof.
  intros H. unfold compatible, base_eq, sp. split.
  - intros [<-|(A & B & C & D)]; [split; [auto|apply same_profile_refl]|].
    split; [auto|]. unfold full_of. rewrite <- A. destruct H as [H|H]; rewrite H in *; exact D.
  - intros ((A & B & C) & D). right. repeat split; auto. unfold full_of in D. rewrite <- A in D.
    destruct H as [H|H]; rewrite H in *; exact D.
Qed.
Lemma neg_codec l r : s_codec (neg_spec l r) = s_codec l.
Proof. unfold neg_spec. destruct (codec_beq _ _); reflexivity. Qed.
Lemma neg_clock l r : s_clock (neg_spec l r) = s_clock l.
Proof. unfold neg_spec. destruct (codec_beq _ _); reflexivity. Qed.
Lemma neg_channels l r : s_channels (neg_spec l r) = s_channels l.
Proof. unfold neg_spec. destruct (codec_beq _ _); reflexivity. Qed.
Lemma neg_id l r : ~ is_h26 l -> neg_spec l r = l.
Proof.
  unfold neg_spec, is_h26, neg_fmt. intros H. destruct (codec_beq _ _); [|reflexivity].
  destruct l as [c k h g]. cbn [s_codec s_clock s_channels s_fmt] in *. destruct c; try reflexivity; tauto.
Qed.
Lemma neg_view l r : is_h26 l -> s_codec l = s_codec r ->
  full_of (neg_spec l r) = neg_ptl (full_of l) (full_of r) /\ f_pid (s_fmt (neg_spec l r)) = neg_pid (full_of r) (f_pid (s_fmt r)).
Proof.
  intros H E. unfold neg_spec. rewrite (proj2 (codec_beq_iff _ _) E). unfold full_of. cbn [s_codec s_fmt]. rewrite <- E.
  destruct H as [H|H]; rewrite H; cbn [neg_fmt f_h265 f_h266 f_pid]; auto.
Qed.
Lemma h26_dec s : is_h26 s \/ ~ is_h26 s.
Proof. unfold is_h26. destruct (s_codec s); (left; left; reflexivity) || (left; right; reflexivity) || (right; intros [X|X]; discriminate). Qed.
Lemma neg_h26 l r : is_h26 l -> is_h26 (neg_spec l r).
Proof. unfold is_h26. rewrite neg_codec. auto. Qed.
Lemma base_neg l r t : base_eq (neg_spec l r) t <-> base_eq l t.
Proof. unfold base_eq. rewrite neg_codec, neg_clock, neg_channels. tauto. Qed.

(** What we settle on can talk to what the remote said. *)
Lemma neg_compat b a : compatible b a -> compatible (neg_spec b a) a.
Proof.
  destruct (h26_dec b) as [H|H]; [|rewrite neg_id; auto].
  rewrite (compat_h26 _ _ H), (compat_h26 _ _ (neg_h26 _ _ H)). intros (A & B). rewrite base_neg. split; [exact A|].
  destruct (neg_view b a H (proj1 A)) as (V & W). unfold sp, same_profile in *. rewrite V, W.
  destruct (full_of a) as [pa|]; destruct (full_of b) as [pb|]; cbn [neg_ptl neg_pid profile_of with_level pl_profile pl_tier] in *; tauto.
Qed.
(** Settling opens the door to others only if the remote itself fitted them. *)
Lemma neg_widen b a s c : compatible b a -> compatible (neg_spec b a) s -> compatible c s ->
  compatible b s \/ compatible c a.
Proof.
  destruct (h26_dec b) as [H|H]; [|rewrite neg_id; auto].
  intros A B C. assert (Hs : s_codec b = s_codec s) by (rewrite <- (compat_codec _ _ B), neg_codec; auto).
  assert (Hc : is_h26 c). { unfold is_h26 in *. rewrite (compat_codec _ _ C), <- Hs. auto. }
  revert A B C. rewrite (compat_h26 _ _ H), (compat_h26 _ s (neg_h26 b a H)), (compat_h26 _ s H), !(compat_h26 _ _ Hc), base_neg.
  intros (A & A') (B & B') (C & C').
  destruct (neg_view b a H (proj1 A)) as (V & W). unfold sp, same_profile in *. rewrite V, W in B'. clear V W.
  unfold base_eq in *.
  destruct (full_of a) as [pa|]; destruct (full_of b) as [pb|]; destruct (full_of s) as [ps|]; destruct (full_of c) as [pc|];
    cbn [neg_ptl neg_pid profile_of with_level pl_profile pl_tier] in *;
    first [ left; split; [exact B|]; split; intuition congruence
          | right; split; [intuition congruence|]; split; intuition congruence ].
Qed.
(** The second settling (of the offerer, with the settled answer) opens no door. *)
Lemma neg_twice a b s : compatible a b -> compatible (neg_spec a (neg_spec b a)) s -> compatible a s.
Proof.
  destruct (h26_dec a) as [H|H]; [|rewrite neg_id; auto].
  intros A B. assert (Hb : is_h26 b) by (unfold is_h26 in *; rewrite <- (compat_codec _ _ A); auto).
  assert (E : s_codec a = s_codec (neg_spec b a)) by (rewrite neg_codec; apply compat_codec; auto).
  revert A B. rewrite (compat_h26 _ _ H), (compat_h26 _ s (neg_h26 a _ H)), (compat_h26 _ s H), base_neg.
  intros (A & A') (B & B'). split; [exact B|].
  destruct (neg_view a _ H E) as (V & W). assert (E' : s_codec b = s_codec a) by (unfold base_eq in A; symmetry; tauto).
  destruct (neg_view b a Hb E') as (V' & W').
  unfold sp, same_profile in *. rewrite V, W, V', W' in B'. clear V W V' W'.
  destruct (full_of a) as [pa|]; destruct (full_of b) as [pb|]; destruct (full_of s) as [ps|];
    cbn [neg_ptl neg_pid profile_of with_level pl_profile pl_tier] in *; intuition congruence.
Qed.

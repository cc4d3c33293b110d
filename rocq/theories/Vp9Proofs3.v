From Verif Require Import Base BaseFacts Brute BufRxSpec Vp8Model Vp8Spec Vp8Proofs Vp9Model Vp9Spec Vp9Proofs Vp9Proofs2.

Definition pk (p : desc9 * list Z) : list Z := enc9 (fst p) ++ snd p.
Definition keyed (d : desc9) : bool := negb (w_inter d) && w_begin d && match w_layer d with Some l => l_sid l =? 0 | None => true end.

(** * Feeding a frame sent layer by layer *)
Lemma feed_layered : forall ps s out x m, ok9 s -> extra_ok x -> layered ps -> -1 <= m ->
  (forall j, m < j < 3 -> layer_end (extra x) j = None) -> (0 <= m -> layer_end (extra x) m = Some (zlen out)) ->
  Forall (fun p => m <= sid_of (fst p)) ps -> (ps = [] -> exists e, x = Some e) ->
  exists s' x', feed vp9_dep s (map pk ps) out x = (s', Some (out ++ concat (map snd ps), Some x')) /\ ok9 s' /\ length (x9_scheme x') = 3%nat /\
    (forall j, 0 <= j < 3 -> layer_end x' j = if existsb (fun p => sid_of (fst p) =? j) ps then Some (zlen out + upto j ps) else layer_end (extra x) j) /\
    x9_key x' = (x9_key (extra x) || existsb (fun p => keyed (fst p)) ps) /\
    (forall v, (ps = [] -> x9_pid (extra x) = v) -> (forall p, In p ps -> exists b, w_pid (fst p) = Some (b, v)) -> x9_pid x' = v) /\
    (forall l, (ps = [] -> x9_tid (extra x) = Some (l_tid l) /\ x9_tl0 (extra x) = Some (l_tl0 l)) ->
       (forall p, In p ps -> w_flex (fst p) = false /\ w_layer (fst p) = Some l) -> x9_tid x' = Some (l_tid l) /\ x9_tl0 x' = Some (l_tl0 l)).
Proof.
  induction ps as [|[d md] ps IH]; intros s out x m K XO (LA & LO) M H1 H2 H3 NX.
  - cbn [map feed concat]. rewrite app_nil_r. destruct (NX eq_refl) as (e & ->). exists s, e. cbn [extra existsb]. rewrite Bool.orb_false_r.
    split; [reflexivity|]. split; [exact K|]. split; [exact XO|]. split; [auto|]. split; [reflexivity|]. split; auto.
  - inversion LA as [|? ? (Da & Dl) LA']; subst. inversion H3 as [|? ? Ms H3']; subst. cbn [fst] in *.
    destruct (w_layer d) as [l|] eqn:LE; [|congruence].
    assert (sid_of d = l_sid l) as SI by (unfold sid_of; rewrite LE; reflexivity). rewrite SI in Ms.
    assert (0 <= l_sid l < 3) as SB. { destruct Da as (_ & D2 & _). rewrite LE in D2. apply D2. }
    destruct (dec_all s d md out x K Da XO) as (s1 & x1 & E1 & K1 & XL1 & T1).
    { unfold fits. rewrite LE. destruct (Z.eq_dec m (l_sid l)) as [EM|NE]; [right; rewrite <- EM; apply H2; lia|left; apply H1; lia]. }
    unfold tells in T1. rewrite LE in T1. destruct T1 as ((T1 & T2 & T3) & T4 & _ & T6).
    assert (layered ps) as LPS.
    { split; [exact LA'|]. intros a p b q c E. apply (LO ((d, md) :: a) p b q c). rewrite E. reflexivity. }
    destruct (IH s1 (out ++ md) (Some x1) (l_sid l)) as (s2 & x2 & F1 & F2 & F3 & F4 & F5 & F6 & F7); try assumption.
    + lia.
    + cbn [extra]. intros j J. rewrite T1 by lia. destruct (j =? l_sid l) eqn:Q; [lia|]. apply H1. lia.
    + intros _. cbn [extra]. rewrite T1 by lia. rewrite Z.eqb_refl, zlen_app. reflexivity.
    + rewrite Forall_forall. intros q IN. rewrite <- SI. apply in_split in IN. destruct IN as (b & c & E). apply (LO [] (d, md) b q c). rewrite E. reflexivity.
    + intros _. eauto.
    + exists s2, x2. cbn [map concat snd]. unfold feed; fold (@feed vp9d (option vp9x) vp9_dep). unfold vp9_dep at 1. unfold pk at 1. cbn [fst snd]. rewrite E1. rewrite F1.
      rewrite <- app_assoc. split; [reflexivity|]. split; [exact F2|]. split; [exact F3|]. cbn [extra] in *.
      assert (forall j, upto j ((d, md) :: ps) = (if l_sid l <=? j then zlen md else 0) + upto j ps) as U by (intro j; cbn [upto]; rewrite LE; reflexivity).
      split; [|split; [|split]].
      * intros j J. rewrite F4 by exact J. cbn [existsb fst]. rewrite SI, U, zlen_app, T1 by exact J.
        destruct (existsb (fun p => sid_of (fst p) =? j) ps) eqn:EX.
        -- rewrite Bool.orb_true_r. f_equal. apply existsb_exists in EX. destruct EX as (q & IN & QE). apply in_split in IN. destruct IN as (b & c & E).
           assert (sid_of d <= sid_of (fst q)) as LT by (apply (LO [] (d, md) b q c); rewrite E; reflexivity).
           destruct (l_sid l <=? j) eqn:Q; [lia|]. lia.
        -- rewrite Bool.orb_false_r. rewrite Z.eqb_sym. destruct (l_sid l =? j) eqn:Q; [|reflexivity]. f_equal.
           assert (forall qs, existsb (fun p => sid_of (fst p) =? j) qs = false -> Forall (fun p => l_sid l <= sid_of (fst p)) qs -> upto j qs = 0) as UZ.
           { clear - Q. induction qs as [|[d' m'] qs IHq]; intros EX F; [reflexivity|]. cbn [existsb fst upto] in *.
             apply orb_false_elim in EX. destruct EX as (EX1 & EX2). inversion F as [|? ? F0 F']; subst. cbn [fst] in F0. rewrite IHq by assumption.
             unfold sid_of in *. destruct (w_layer d') as [l'|]; [|reflexivity]. destruct (l_sid l' <=? j) eqn:Q2; [lia|reflexivity]. }
           rewrite UZ; [destruct (l_sid l <=? j) eqn:Q2; lia|exact EX|].
           rewrite Forall_forall. intros q IN. rewrite <- SI. apply in_split in IN. destruct IN as (b & c & E). apply (LO [] (d, md) b q c). rewrite E. reflexivity.
      * rewrite F5, T6. cbn [existsb fst]. unfold keyed at 2. rewrite LE. rewrite Bool.orb_assoc. reflexivity.
      * intros v _ AL. apply F6; [|intros p IN; apply AL; right; exact IN]. intros _. destruct (AL (d, md) (or_introl eq_refl)) as (b & WE).
        cbn [fst] in WE. rewrite WE in T4. exact T4.
      * intros l' _ AL. destruct (AL (d, md) (or_introl eq_refl)) as (WF & WL). cbn [fst] in WF, WL. assert (l' = l) as -> by congruence.
        apply F7; [|intros p IN; apply AL; right; exact IN]. intros _. rewrite WF in T3. auto.
Qed.

(** * Feeding a frame without layer indices *)
Lemma feed_plain : forall ps s out x, ok9 s -> extra_ok x -> Forall (fun p => desc_ok (fst p) /\ w_layer (fst p) = None) ps -> (ps = [] -> exists e, x = Some e) ->
  exists s' x', feed vp9_dep s (map pk ps) out x = (s', Some (out ++ concat (map snd ps), Some x')) /\ ok9 s' /\ length (x9_scheme x') = 3%nat /\
    x9_key x' = (x9_key (extra x) || existsb (fun p => keyed (fst p)) ps) /\
    (forall v, (ps = [] -> x9_pid (extra x) = v) -> (forall p, In p ps -> exists b, w_pid (fst p) = Some (b, v)) -> x9_pid x' = v) /\
    x9_tid x' = x9_tid (extra x) /\ (forall j, 0 <= j < 3 -> layer_end x' j = layer_end (extra x) j).
Proof.
  induction ps as [|[d md] ps IH]; intros s out x K XO LA NX.
  - cbn [map feed concat]. rewrite app_nil_r. destruct (NX eq_refl) as (e & ->). exists s, e. cbn [extra existsb]. rewrite Bool.orb_false_r.
    split; [reflexivity|]. split; [exact K|]. split; [exact XO|]. split; [reflexivity|]. split; auto.
  - inversion LA as [|? ? (Da & Dl) LA']; subst. cbn [fst] in *.
    destruct (dec_all s d md out x K Da XO) as (s1 & x1 & E1 & K1 & XL1 & T1). { unfold fits. rewrite Dl. exact I. }
    unfold tells in T1. rewrite Dl in T1. destruct T1 as ((T1 & T2 & T3) & T4 & _ & T6).
    destruct (IH s1 (out ++ md) (Some x1) K1 XL1 LA') as (s2 & x2 & F1 & F2 & F3 & F5 & F6 & F7 & F8); [eauto|].
    exists s2, x2. cbn [map concat snd]. unfold feed; fold (@feed vp9d (option vp9x) vp9_dep). unfold vp9_dep at 1. unfold pk at 1. cbn [fst snd]. rewrite E1. rewrite F1.
    rewrite <- app_assoc. split; [reflexivity|]. split; [exact F2|]. split; [exact F3|]. cbn [extra] in *. split; [|split; [|split]].
    + rewrite F5, T6. cbn [existsb fst]. unfold keyed at 2. rewrite Dl. rewrite Bool.orb_assoc. reflexivity.
    + intros v _ AL. apply F6; [|intros p IN; apply AL; right; exact IN]. intros _. destruct (AL (d, md) (or_introl eq_refl)) as (b & WE).
      cbn [fst] in WE. rewrite WE in T4. exact T4.
    + congruence.
    + intros j J. rewrite F8, T1 by exact J. reflexivity.
Qed.

(** * The packetizer writes RFC 9628 descriptors *)
Lemma pid_bytes v : 0 <= v < 32768 -> Z.lor (Z.land (Z.shiftr v 8) 255) 128 = 128 + v / 256 /\ Z.land v 255 = v mod 256.
Proof.
  intro H. pose proof (brute 32768 (fun v => (Z.lor (Z.land (Z.shiftr v 8) 255) 128 =? 128 + v / 256) && (Z.land v 255 =? v mod 256))
    ltac:(vm_compute; reflexivity) v H) as Q. cbn beta in Q. apply andb_prop in Q. destruct Q as (Q1 & Q2). apply Z.eqb_eq in Q1, Q2. auto.
Qed.
Definition desc_nf (pid tl0 : Z) (key first last : bool) : desc9 :=
  mkW (Some (true, pid)) (negb key) (Some (mkLay 0 true 0 false tl0)) false first last (if key && first then Some (mkSS 1 None None) else None) false [].
Definition desc_f (pid : Z) (first last : bool) : desc9 := mkW (Some (true, pid)) false None true first last None false [].
Lemma head_nf pid tl0 key first last : 0 <= pid < 32768 -> vp9_header_nf pid tl0 key first last = enc9 (desc_nf pid tl0 key first last).
Proof.
  intro H. destruct (pid_bytes pid H) as (E1 & E2). unfold vp9_header_nf. cbv zeta. rewrite E1, E2. unfold enc9, desc_nf. cbn [w_pid w_inter w_layer w_flex w_begin w_end w_ss w_noref w_refs opt enc_pid fst snd app].
  set (a := 128 + pid / 256). set (b := pid mod 256). clearbody a b. destruct key, first, last; reflexivity.
Qed.
Lemma head_f pid first last : 0 <= pid < 32768 -> vp9_header_f pid first last = enc9 (desc_f pid first last).
Proof.
  intro H. destruct (pid_bytes pid H) as (E1 & E2). unfold vp9_header_f. cbv zeta. rewrite E1, E2. unfold enc9, desc_f. cbn [w_pid w_inter w_layer w_flex w_begin w_end w_ss w_noref w_refs opt enc_pid fst snd app].
  set (a := 128 + pid / 256). set (b := pid mod 256). clearbody a b. destruct first, last; reflexivity.
Qed.
Lemma desc_nf_ok pid tl0 key first last : 0 <= pid < 32768 -> byte_ok tl0 -> desc_ok (desc_nf pid tl0 key first last).
Proof.
  intros H T. unfold desc_ok, desc_nf. cbn [w_pid w_inter w_layer w_flex w_refs w_ss ifS andb]. split; [exact H|]. split; [unfold lay_ok; cbn [l_tid l_sid l_tl0]; split; [lia|]; split; [lia|exact T]|].
  split; [|discriminate]. destruct (key && first); cbn [ifS]; [|exact I]. unfold ss_ok. cbn. lia.
Qed.
Lemma desc_f_ok pid first last : 0 <= pid < 32768 -> desc_ok (desc_f pid first last).
Proof. intros H. unfold desc_ok, desc_f. cbn [w_pid w_inter w_layer w_flex w_refs w_ss ifS andb]. split; [exact H|]. split; [exact I|]. split; [exact I|discriminate]. Qed.

(** The tail of the frame has no begin flag, so is no head. *)
Lemma head_nf_b pid tl0 key first last d : vp9_head (vp9_header_nf pid tl0 key first last ++ d) = first.
Proof. unfold vp9_header_nf, vp9_head. cbv zeta. cbn [app]. destruct key, first, last; reflexivity. Qed.
Lemma head_f_b pid first last d : vp9_head (vp9_header_f pid first last ++ d) = first.
Proof. unfold vp9_header_f, vp9_head. cbv zeta. cbn [app]. destruct first, last; reflexivity. Qed.
Lemma heads (mk : bool -> bool -> list Z -> list Z) max l : 1 <= max -> l <> [] -> (forall f b d, vp9_head (mk f b d) = f) ->
  one_head vp9_head (map (fun '(f, b, d) => mk f b d) (frags max l)).
Proof.
  intros M NE H. destruct (frags_ok max l M NE) as (_ & _ & (b & d & r & E & F) & _). rewrite E. cbn [map].
  eexists _, _. split; [reflexivity|]. split; [apply H|]. rewrite Forall_forall in *. intros q IN. apply in_map_iff in IN. destruct IN as ([[f' b'] d'] & <- & IN2).
  rewrite H. apply (F _ IN2).
Qed.

Lemma zlen_nf pid tl0 key first last : zlen (vp9_header_nf pid tl0 key first last) = if key && first then 6 else 5.
Proof. unfold vp9_header_nf. cbv zeta. destruct key, first, last; reflexivity. Qed.
Lemma zlen_f pid first last : zlen (vp9_header_f pid first last) = 3.
Proof. reflexivity. Qed.
Lemma vp9_nf_round p mtu payload s p' pkts : reach9 s -> 0 <= p9_pid p < 32768 -> 0 <= p9_tl0 p < 256 -> p9_mode p = NonFlexible -> payload <> [] -> 8 < mtu ->
  vp9_packetize p mtu payload = (p', pkts) ->
  fit mtu pkts /\ one_head vp9_head pkts /\
  exists s' x, feed vp9_dep s pkts [] None = (s', Some (payload, Some x)) /\
    x9_key x = vp9_keyframe_bitstream payload /\ x9_pid x = p9_pid p /\ x9_tl0 x = Some ((p9_tl0 p + 1) mod 256) /\ x9_tid x = Some 0 /\
    layer_end x 0 = Some (zlen payload) /\ layer_end x 1 = None /\ layer_end x 2 = None.
Proof.
  intros R P T M NE MT. unfold vp9_packetize, vp9_packetize_nf. rewrite M. cbv zeta.
  assert (1 <= zlen payload) as LP. { destruct payload; [congruence|]. rewrite zlen_cons. pose proof (zlen_nonneg payload). lia. }
  destruct ((zlen payload =? 0) || (mtu =? 0)) eqn:Q1; [lia|]. destruct (Z.min (mtu - 8) (zlen payload) <=? 0) eqn:Q2; [lia|].
  intro E. apply (f_equal snd) in E. cbn [snd] in E. subst pkts. clear p'. set (tl0 := (p9_tl0 p + 1) mod 256). set (key := vp9_keyframe_bitstream payload).
  assert (byte_ok tl0) as TB by (unfold byte_ok, tl0; dlia).
  destruct (frags_ok (mtu - 8) payload ltac:(lia) NE) as (A & B & (b0 & d0 & r0 & C1 & C2) & D).
  set (G := fun '(first, last, d) => (desc_nf (p9_pid p) tl0 key first last, d) : desc9 * list Z).
  assert (map (fun '(first, last, d) => vp9_header_nf (p9_pid p) tl0 key first last ++ d) (frags (mtu - 8) payload) = map pk (map G (frags (mtu - 8) payload))) as EM.
  { rewrite map_map. apply map_ext. intros [[f l] d]. unfold pk, G. cbn [fst snd]. rewrite head_nf by exact P. reflexivity. }
  split; [|split].
  - split. { rewrite C1. discriminate. } rewrite Forall_forall in *. intros q IN. apply in_map_iff in IN. destruct IN as ([[f l] d] & <- & IN). specialize (B _ IN). cbn [snd] in B. 
    rewrite zlen_app, zlen_nf. destruct (key && f); lia.
  - apply (heads (fun f b d => vp9_header_nf (p9_pid p) tl0 key f b ++ d)); [lia|exact NE|]. intros. apply head_nf_b.
  - rewrite EM.
    assert (Forall (fun q => desc_ok (fst q) /\ sid_of (fst q) = 0 /\ w_layer (fst q) = Some (mkLay 0 true 0 false tl0) /\ w_flex (fst q) = false /\ exists b, w_pid (fst q) = Some (b, p9_pid p)) (map G (frags (mtu - 8) payload))) as FA.
    { rewrite Forall_forall. intros q IN. apply in_map_iff in IN. destruct IN as ([[f l] d] & <- & _). cbn [fst G]. split; [apply desc_nf_ok; auto|]. split; [reflexivity|]. split; [reflexivity|]. split; [reflexivity|]. exists true. reflexivity. }
    destruct (feed_layered (map G (frags (mtu - 8) payload)) s [] None (-1)) as (s' & x & F1 & F2 & F3 & F4 & F5 & F6 & F7).
    + apply reach_ok. exact R.
    + exact I.
    + split. { rewrite Forall_forall in *. intros q IN. destruct (FA q IN) as (W1 & W2 & W3 & _). split; [exact W1|]. rewrite W3. discriminate. }
      intros a q b q2 c EQ. rewrite Forall_forall in FA. destruct (FA q) as (_ & -> & _). { rewrite EQ. apply in_or_app. right. left. reflexivity. }
      destruct (FA q2) as (_ & -> & _). { rewrite EQ. apply in_or_app. right. right. apply in_or_app. right. left. reflexivity. } lia.
    + lia.
    + intros j J. cbn [extra]. unfold layer_end. assert (j = 0 \/ j = 1 \/ j = 2) as [-> | [-> | ->]] by lia; reflexivity.
    + lia.
    + rewrite Forall_forall in *. intros q IN. destruct (FA q IN) as (_ & -> & _). lia.
    + rewrite C1. discriminate.
    + exists s', x. cbn [app] in F1. rewrite (map_map G snd) in F1.
      assert (map (fun f => snd (G f)) (frags (mtu - 8) payload) = map snd (frags (mtu - 8) payload)) as ES by (apply map_ext; intros [[f l] d]; reflexivity).
      rewrite ES, A in F1. split; [exact F1|]. rewrite Forall_forall in FA.
      assert (forall j, existsb (fun q => sid_of (fst q) =? j) (map G (frags (mtu - 8) payload)) = (j =? 0)) as EX.
      { intro j. rewrite C1. cbn [map existsb G fst]. change (sid_of (desc_nf _ _ _ _ _)) with 0.
        assert (existsb (fun q => sid_of (fst q) =? j) (map G r0) = true -> j = 0) as H1.
        { intro H. apply existsb_exists in H. destruct H as (q & IN & QE). destruct (FA q) as (_ & W & _); [rewrite C1; right; exact IN|]. lia. }
        destruct (existsb _ (map G r0)); [specialize (H1 eq_refl); subst; reflexivity|]. rewrite Bool.orb_false_r. apply Z.eqb_sym. }
      assert (upto 0 (map G (frags (mtu - 8) payload)) = zlen payload) as UP.
      { rewrite <- A at 2. generalize (frags (mtu - 8) payload). induction l as [|[[f l] d] fs IH]; [reflexivity|].
        cbn [map G upto concat snd]. cbn [w_layer desc_nf l_sid]. change (0 <=? 0) with true. cbv iota. rewrite IH, zlen_app. reflexivity. }
      split; [|split; [|split; [|split; [|split; [|split]]]]].
      * rewrite F5. cbn [extra x9_key vp9x0 orb]. rewrite C1. cbn [map existsb G fst]. unfold keyed at 1. cbn [desc_nf w_inter w_begin w_layer l_sid]. rewrite Bool.negb_involutive.
        assert (existsb (fun q => keyed (fst q)) (map G r0) = false) as ->.
        { destruct (existsb _ (map G r0)) eqn:H; [|reflexivity]. apply existsb_exists in H. destruct H as (q & IN & QE). apply in_map_iff in IN. destruct IN as ([[f l] d] & <- & IN).
          rewrite Forall_forall in C2. specialize (C2 _ IN). cbn in C2. subst f. unfold keyed in QE. cbn [G fst desc_nf w_inter w_begin] in QE. rewrite Bool.andb_false_r in QE. discriminate. }
        rewrite Bool.orb_false_r. change (0 =? 0) with true. rewrite !Bool.andb_true_r. reflexivity.
      * apply F6; [rewrite C1; discriminate|]. intros q IN. apply (FA q IN).
      * apply (F7 (mkLay 0 true 0 false tl0)); [rewrite C1; discriminate|]. intros q IN. destruct (FA q IN) as (_ & _ & W3 & W4 & _). auto.
      * apply (F7 (mkLay 0 true 0 false tl0)); [rewrite C1; discriminate|]. intros q IN. destruct (FA q IN) as (_ & _ & W3 & W4 & _). auto.
      * rewrite F4, EX by lia. change (0 =? 0) with true. cbv iota. rewrite UP. reflexivity.
      * rewrite F4, EX by lia. reflexivity.
      * rewrite F4, EX by lia. reflexivity.
Qed.

Lemma vp9_f_round p mtu payload s p' pkts : reach9 s -> 0 <= p9_pid p < 32768 -> p9_mode p = Flexible -> payload <> [] -> 3 < mtu ->
  vp9_packetize p mtu payload = (p', pkts) ->
  fit mtu pkts /\ one_head vp9_head pkts /\
  exists s' x, feed vp9_dep s pkts [] None = (s', Some (payload, Some x)) /\
    x9_key x = true /\ x9_pid x = p9_pid p /\ x9_tid x = None /\ (forall j, 0 <= j < 3 -> layer_end x j = None).
Proof.
  intros R P M NE MT. unfold vp9_packetize, vp9_packetize_f. rewrite M. cbv zeta.
  assert (1 <= zlen payload) as LP. { destruct payload; [congruence|]. rewrite zlen_cons. pose proof (zlen_nonneg payload). lia. }
  destruct ((zlen payload =? 0) || (mtu =? 0)) eqn:Q1; [lia|]. destruct (Z.min (mtu - 3) (zlen payload) <=? 0) eqn:Q2; [lia|].
  intro E. apply (f_equal snd) in E. cbn [snd] in E. subst pkts. clear p'.
  destruct (frags_ok (mtu - 3) payload ltac:(lia) NE) as (A & B & (b0 & d0 & r0 & C1 & C2) & D).
  set (G := fun '(first, last, d) => (desc_f (p9_pid p) first last, d) : desc9 * list Z).
  assert (map (fun '(first, last, d) => vp9_header_f (p9_pid p) first last ++ d) (frags (mtu - 3) payload) = map pk (map G (frags (mtu - 3) payload))) as EM.
  { rewrite map_map. apply map_ext. intros [[f l] d]. unfold pk, G. cbn [fst snd]. rewrite head_f by exact P. reflexivity. }
  split; [|split].
  - split. { rewrite C1. discriminate. } rewrite Forall_forall in *. intros q IN. apply in_map_iff in IN. destruct IN as ([[f l] d] & <- & IN). specialize (B _ IN). cbn [snd] in B. 
    rewrite zlen_app, zlen_f. lia.
  - apply (heads (fun f b d => vp9_header_f (p9_pid p) f b ++ d)); [lia|exact NE|]. intros. apply head_f_b.
  - rewrite EM.
    assert (Forall (fun q => desc_ok (fst q) /\ w_layer (fst q) = None /\ exists b, w_pid (fst q) = Some (b, p9_pid p)) (map G (frags (mtu - 3) payload))) as FA.
    { rewrite Forall_forall. intros q IN. apply in_map_iff in IN. destruct IN as ([[f l] d] & <- & _). cbn [fst G]. split; [apply desc_f_ok; auto|]. split; [reflexivity|]. exists true. reflexivity. }
    destruct (feed_plain (map G (frags (mtu - 3) payload)) s [] None) as (s' & x & F1 & F2 & F3 & F5 & F6 & F7 & F8).
    + apply reach_ok. exact R.
    + exact I.
    + rewrite Forall_forall in *. intros q IN. destruct (FA q IN) as (W1 & W2 & _). auto.
    + rewrite C1. discriminate.
    + exists s', x. cbn [app] in F1. rewrite (map_map G snd) in F1.
      assert (map (fun f => snd (G f)) (frags (mtu - 3) payload) = map snd (frags (mtu - 3) payload)) as ES by (apply map_ext; intros [[f l] d]; reflexivity).
      rewrite ES, A in F1. split; [exact F1|]. rewrite Forall_forall in FA. split; [|split; [|split]].
      * rewrite F5. rewrite C1. reflexivity.
      * apply F6; [rewrite C1; discriminate|]. intros q IN. apply (FA q IN).
      * exact F7.
      * intros j J. rewrite F8 by exact J. cbn [extra]. unfold layer_end. assert (j = 0 \/ j = 1 \/ j = 2) as [-> | [-> | ->]] by lia; reflexivity.
Qed.

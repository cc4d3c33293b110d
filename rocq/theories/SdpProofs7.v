(** Media descriptions and the whole description are read back. *)
From Coq Require Import String Ascii Permutation.
From Verif Require Import Base BaseFacts PayModel PrioModel TextModel TextFacts SdpModel SdpSpec SdpProofs1 SdpProofs2 SdpProofs3 SdpProofs4 SdpProofs5 SdpProofs6.

(** ** lists of written pieces *)
Lemma concat_ok : forall A B (sh : A -> res str) (keep : A -> bool) (R : A -> B -> Prop) (Q : str -> B -> Prop) l,
  (forall a, In a l -> keep a = false -> sh a = Ok []) ->
  (forall a, In a l -> keep a = true -> exists s b, R a b /\ sh a = Ok s /\ Q s b) ->
  exists L, concat_res sh l = Ok (List.concat (map fst L)) /\ Forall2 R (filter keep l) (map snd L) /\ Forall (fun p => Q (fst p) (snd p)) L.
Proof.
  intros A B sh keep R Q l. induction l as [|a l IH]; intros H0 H1.
  - exists []. split; [reflexivity|]. split; constructor.
  - destruct IH as (L & E & F & G); [intros; apply H0; [right|]; assumption|intros; apply H1; [right|]; assumption|].
    cbn [concat_res filter]. destruct (keep a) eqn:K.
    + destruct (H1 a (or_introl eq_refl) K) as (s & b & Rb & Es & Qs). exists ((s, b) :: L). rewrite Es, E. cbn [bind].
      split; [reflexivity|]. split; constructor; assumption.
    + rewrite (H0 a (or_introl eq_refl) K), E. exists L. cbn [bind app]. split; [reflexivity|]. split; assumption.
Qed.
Lemma filter_true : forall A (l : list A), filter (fun _ => true) l = l.
Proof. induction l as [|x l IH]; [reflexivity|]. cbn. rewrite IH. reflexivity. Qed.
(** repetition where what follows matters *)
Lemma many_go_okP : forall A (p : parser A) (Q : str -> Prop) (l : list (str * A)) tail fuel b,
  (forall w v r, In (w, v) l -> Q r -> p (w ++ r) = POk true v r) -> (forall w v, In (w, v) l -> w <> []) ->
  (forall w v r, In (w, v) l -> Q (w ++ r)) -> Q tail ->
  p tail = PErr false ->
  (length (List.concat (map fst l) ++ tail) <= fuel)%nat ->
  exists c, many_go fuel p b (List.concat (map fst l) ++ tail) = POk c (map snd l) tail.
Proof.
  intros A p Q l. induction l as [|[w v] l IH]; intros tail fuel b Hp Hn HQ Qt He Hf; cbn [map List.concat fst snd app] in *.
  - destruct fuel as [|f]; cbn [many_go]; [|rewrite He]; eexists; reflexivity.
  - rewrite <- app_assoc in *. destruct fuel as [|f].
    + rewrite app_length in Hf. specialize (Hn w v (or_introl eq_refl)). destruct w; [congruence|cbn in Hf; lia].
    + cbn [many_go]. rewrite (Hp w v).
      2:{ left; reflexivity. }
      2:{ destruct l as [|[w' v'] l]; [exact Qt|]. cbn [map List.concat fst]. rewrite <- app_assoc. eapply HQ. right. left. reflexivity. }
      destruct (IH tail f true) as [c E].
      * intros; apply Hp; [right|]; assumption.
      * intros; eapply Hn; right; eassumption.
      * intros; eapply HQ; right; eassumption.
      * assumption.
      * assumption.
      * rewrite app_length in Hf. specialize (Hn w v (or_introl eq_refl)). destruct w; [congruence|cbn in Hf; lia].
      * rewrite E. exists c. reflexivity.
Qed.
Lemma many_none : forall A (p : parser A) s, p s = PErr false -> many p s = POk false [] s.
Proof. intros A p s H. unfold many. destruct s as [|c s]; [reflexivity|]. cbn [length many_go]. rewrite H. reflexivity. Qed.

(** ** bandwidth *)
Lemma bw_some : forall b r, bw_ok (Some b) -> p_bw (show_bw (Some b) ++ r) = POk true b r.
Proof.
  intros [t v] r H. destruct (H _ eq_refl) as (H1 & H2 & H3). cbn [bw_typ bw_val] in *. unfold show_bw, p_bw. cbn [bw_typ bw_val]. rewrite <- !app_assoc.
  eapply typed_ok with (c := true). eapply pbind_okt; [apply take1_ok; [exact H1| |reflexivity]|].
  - eapply Forall_impl; [|exact H2]. cbn. intros; lia.
  - eapply pbind_okt; [reflexivity|]. eapply pbind_okt; [apply any_ok; exact H3|]. reflexivity.
Qed.
Lemma bw_read : forall b r, bw_ok b -> (match r with [] => True | c :: _ => c <> 98 end) ->
  exists c, optional p_bw (show_bw b ++ r) = POk c b r.
Proof.
  intros [b|] r H S.
  - exists true. eapply optional_some. apply bw_some. exact H.
  - exists false. cbn [show_bw app]. apply optional_none. destruct r as [|c r]; [reflexivity|]. apply typed_other. exact S.
Qed.

(** ** the head of a media description *)
Lemma prefix_word : forall n v t, Forall (fun c => c <> 32) n -> prefixb n (v ++ 32 :: t) = true -> exists w, v = n ++ w.
Proof.
  induction n as [|x n IH]; intros v t F H; [exists v; reflexivity|]. inversion F; subst. destruct v as [|y v]; cbn [app prefixb] in H.
  - apply andb_prop in H. destruct H as [H _]. apply Z.eqb_eq in H. congruence.
  - apply andb_prop in H. destruct H as [H0 H]. apply Z.eqb_eq in H0. subst y. destruct (IH v t) as [w ->]; [assumption|exact H|].
    exists w. reflexivity.
Qed.
Lemma word_lits : forall n, forallb (fun c => negb (c =? 32)) n = true -> Forall (fun c => c <> 32) n.
Proof. intros n H. apply Forall_forall. rewrite forallb_forall in H. intros c I. specialize (H c I). lia. Qed.
Lemma mtype_read : forall t r, mtype_ok t -> p_mtype (show_mtype t ++ T " " ++ r) = POk true t (T " " ++ r).
Proof.
  intros t r H. destruct t as [| | |v]; try reflexivity. destruct H as (Hw & H1 & H2 & H3). cbn [show_mtype]. unfold p_mtype.
  assert (K : forall n, forallb (fun c => negb (c =? 32)) n = true -> ~ starts n v -> forall (B : Type) (f : unit -> B), attempt (pmap f (lit n)) (v ++ T " " ++ r) = PErr false).
  { intros n Fn Ns B f. apply fails_attempt. apply fails_map. apply lit_go_fail. destruct (prefixb n (v ++ T " " ++ r)) eqn:E; [|reflexivity].
    exfalso. apply Ns. eapply prefix_word; [apply word_lits; exact Fn|exact E]. }
  rewrite choice_skip by (apply K; [reflexivity|exact H1]). rewrite choice_skip by (apply K; [reflexivity|exact H2]).
  rewrite choice_skip by (apply K; [reflexivity|exact H3]). eapply choice_hit. eapply pmap_ok. apply not_sp_ok; [exact Hw|reflexivity].
Qed.
Lemma mproto_read : forall p r, p_mproto (show_mproto p ++ r) = POk true p r.
Proof. intros [] r; reflexivity. Qed.
Definition port_text (d : bool) : str := if d then T "0" else T "9".
Lemma port_read : forall d r, not_sp (port_text d ++ T " " ++ r) = POk true (port_text d) (T " " ++ r).
Proof. intros [] r; reflexivity. Qed.
Definition pts_text (m : mline) : str := if is_app (ml_typ m) then T "webrtc-datachannel" else join (T " ") (map dec (ml_pts m)).
Lemma pts_read : forall m r, Forall u8 (ml_pts m) -> (ml_typ m = MTApp -> ml_pts m = []) ->
  exists c, choice [attempt (sep_by (pand not_sp read_u8) (token 32)); pmap (fun _ => []) any_value] (pts_text m ++ crlf ++ r) = POk c (ml_pts m) (crlf ++ r).
Proof.
  intros m r H A. unfold pts_text. destruct (is_app (ml_typ m)) eqn:E.
  - rewrite A by (destruct (ml_typ m); (reflexivity || discriminate)). exists true.
    rewrite choice_skip by reflexivity. eapply choice_hit. apply (pmap_ok _ _ (fun _ => []) _ _ _ (T "webrtc-datachannel")).
    apply any_ok. split; [discriminate|]. apply Forall_forall. intros c Hc. apply not_eol_iff. revert c Hc. apply forallb_forall. reflexivity.
  - destruct (ml_pts m) as [|p l] eqn:L; [exists false; reflexivity|]. rewrite <- L in *. exists true.
    eapply choice_hit. eapply attempt_ok. unfold sep_by. eapply choice_hit. apply (sep_list _ (pand not_sp read_u8) 32 dec).
    + rewrite L. discriminate.
    + intros x s Hx Hs. rewrite Forall_forall in H. specialize (H x Hx). unfold u8 in H. apply num_ok; [exact H|].
      destruct Hs as [[t ->]| ->]; reflexivity.
    + discriminate.
Qed.
Lemma head_read : forall m r, mtype_ok (ml_typ m) -> Forall u8 (ml_pts m) -> (ml_typ m = MTApp -> ml_pts m = []) ->
  p_mhead (T "m=" ++ show_mtype (ml_typ m) ++ T " " ++ port_text (ml_disabled m) ++ T " " ++ show_mproto (ml_proto m) ++ T " " ++ pts_text m ++ crlf ++ r)
  = POk true (ml_typ m, port_text (ml_disabled m), ml_proto m, ml_pts m) r.
Proof.
  intros m r Ht Hp Ha. destruct (pts_read m r Hp Ha) as [c P]. unfold p_mhead. eapply typed_ok with (c := true).
  eapply pbind_okt; [apply mtype_read; exact Ht|]. eapply pbind_okt; [reflexivity|].
  eapply pbind_okt; [apply port_read|]. eapply pbind_okt; [reflexivity|]. eapply pbind_okt; [apply mproto_read|].
  eapply pbind_okt; [reflexivity|]. eapply pbind_ok; [exact P|]. reflexivity.
Qed.

(** ** a media description; what follows is another or the end *)
Definition next_media (s : str) : Prop := match s with [] => True | c :: _ => c = 109 end.
Lemma next_attr : forall s, next_media s -> not_attr s.
Proof. intros [|c s] H; [exact I|]. cbn in *. lia. Qed.
Definition mline_text (e : env) (m : mline) (a : str) : str :=
  T "m=" ++ show_mtype (ml_typ m) ++ T " " ++ port_text (ml_disabled m) ++ T " " ++ show_mproto (ml_proto m) ++ T " " ++ pts_text m ++ crlf
  ++ T "c=IN IP4 0.0.0.0" ++ crlf ++ show_bw (ml_bw m) ++ a.
Definition l_reads_as (e : env) (m' : mline) (s : str) : Prop :=
  (exists t, s = 109 :: 61 :: t) /\ (forall r, next_media r -> p_mline e (s ++ r) = POk true m' r).
Lemma mline_read : forall e m, env_ok e -> mline_ok m -> exists s m', mline_reads e m m' /\ show_mline e m = Ok s /\ l_reads_as e m' s.
Proof.
  intros e m He [Ht Hp Happ Hbw Hat Hcons].
  destruct (concat_ok mattr mattr (show_mattr e) (fun a => negb (silent a)) (mattr_reads e)
     (fun s a' => (exists t, s = 97 :: 61 :: t) /\ forall r, p_mattr e (s ++ r) = POk true a' r) (ml_attrs m)) as (L & EL & FL & GL).
  - intros a I S. apply negb_false_iff in S. destruct a; try discriminate.
    + destruct v; [reflexivity|discriminate].
    + cbn [silent] in S. cbn [show_mattr]. rewrite S. rewrite Forall_forall in Hat. specialize (Hat _ I). destruct Hat as (Hne & _).
      destruct (sm_send s), (sm_recv s); try reflexivity. exfalso. destruct Hne; congruence.
  - intros a I S. apply negb_true_iff in S. rewrite Forall_forall in Hat.
    destruct (media_read e a He (Hat a I) S) as (s & a' & Ra & Es & Hs & P). exists s, a'. auto.
  - set (m' := mkM (ml_typ m) (ml_disabled m) (ml_proto m) (ml_pts m) (ml_bw m) (map snd L)).
    assert (R : mline_reads e m m') by (constructor; (reflexivity || exact FL)).
    exists (mline_text e m (List.concat (map fst L))), m'. split; [exact R|]. split.
    { unfold show_mline. rewrite EL. cbn [bind]. reflexivity. }
    split; [eexists; reflexivity|]. intros r Hr.
    rewrite Forall_forall in GL.
    destruct (many_ok mattr (p_mattr e) L r) as [cm EM].
    { intros w v r' I. apply (GL _ I). }
    { intros w v I. destruct (GL _ I) as [[t Et] _]. cbn [fst] in Et. subst. discriminate. }
    { apply p_mattr_end. apply next_attr. exact Hr. }
    destruct (bw_read (ml_bw m) (List.concat (map fst L) ++ r) Hbw) as [cb EB].
    { destruct L as [|[w v] L']; cbn [map List.concat fst app].
      - destruct r; [exact I|]. cbn in Hr. lia.
      - destruct (GL (w, v) (or_introl eq_refl)) as [[t Et] _]. cbn [fst] in Et. subst w. cbn. discriminate. }
    unfold mline_text. rewrite <- !app_assoc. unfold p_mline. eapply pand_ok.
    + eapply pbind_okt; [apply head_read; assumption|].
      eapply pbind_okt.
      { eapply optional_some. eapply typed_ok with (c := true). apply (any_ok (T "IN IP4 0.0.0.0")).
        split; [discriminate|]. apply Forall_forall. intros c Hc. apply not_eol_iff. revert c Hc. apply forallb_forall. reflexivity. }
      eapply pbind_ok; [exact EB|]. eapply pbind_ok; [exact EM|]. reflexivity.
    + assert (Hd : seqb (port_text (ml_disabled m)) (T "0") = ml_disabled m) by (destruct (ml_disabled m); reflexivity).
      cbv beta iota. rewrite Hd. pose proof (consistent_reads e m m' Hcons R) as CC. transitivity (if check_consistent m' then Some m' else None); [reflexivity|]. rewrite CC. reflexivity.
Qed.
Lemma p_mline_end : forall e, p_mline e [] = PErr false.
Proof. reflexivity. Qed.

(** ** the whole description *)
Lemma ignored_other : forall c s, ~ In c [105; 117; 101; 112; 99; 122; 107] -> p_ignored (c :: s) = PErr false.
Proof.
  intros c s H. unfold p_ignored. apply map_err. unfold pline. apply att_err. apply bind_peek. cbn [In] in H. cbn [map].
  do 7 (rewrite choice_skip by (unfold token, satisfy; match goal with |- (if ?a =? ?b then _ else _) = _ => destruct (Z.eqb_spec a b); [exfalso; apply H; tauto|reflexivity] end)).
  reflexivity.
Qed.
Lemma origin_read : forall n r, u64 n -> p_origin (T "o=str0m-" ++ version ++ T " " ++ dec n ++ T " 2 IN IP4 0.0.0.0" ++ crlf ++ r) = POk true n r.
Proof.
  intros n r H. unfold u64 in H. unfold p_origin. eapply pand_ok; [|apply read_dec; exact H].
  eapply typed_ok with (c := true).
  eapply pbind_okt; [apply (not_sp_ok (T "str0m-" ++ version)); [|reflexivity]|].
  { split; [discriminate|]. apply Forall_forall. intros c Hc. apply not_spc_iff. revert c Hc. apply forallb_forall. reflexivity. }
  eapply pbind_okt; [reflexivity|].
  destruct (dec_chars n is_digit) as [N F]; [lia|intros; unfold is_digit; lia|].
  eapply pbind_okt; [apply take1_ok; [exact N|exact F|reflexivity]|]. eapply pbind_okt; [reflexivity|].
  eapply pbind_okt; [apply (any_ok (T "2 IN IP4 0.0.0.0"))|reflexivity].
  split; [discriminate|]. apply Forall_forall. intros c Hc. apply not_eol_iff. revert c Hc. apply forallb_forall. reflexivity.
Qed.
Lemma sdp_read : forall e d, env_ok e -> sdp_ok d -> exists s d', show_sdp e d = Ok s /\ p_sdp e s = POk true d' [] /\ sdp_reads e d d'.
Proof.
  intros e d He [Hid Hbw Hat Hln].
  destruct (concat_ok sattr sattr (show_sattr e) (fun _ => true) (sattr_reads e)
     (fun s a' => (exists t, s = 97 :: 61 :: t) /\ forall r, p_sattr e (s ++ r) = POk true a' r) (sd_attrs d)) as (A & EA & FA & GA).
  { intros a I S. discriminate. }
  { intros a I _. rewrite Forall_forall in Hat. destruct (session_read e a He (Hat a I)) as (s & a' & Ra & Es & Hs & P). exists s, a'. auto. }
  destruct (concat_ok mline mline (show_mline e) (fun _ => true) (mline_reads e) (fun s m' => l_reads_as e m' s) (sd_lines d)) as (L & EL & FL & GL).
  { intros a I S. discriminate. }
  { intros m I _. rewrite Forall_forall in Hln. apply mline_read; [exact He|apply Hln; exact I]. }
  rewrite filter_true in FA, FL. rewrite Forall_forall in GA, GL.
  set (TA := List.concat (map fst A)) in *. set (TL := List.concat (map fst L)) in *.
  destruct (many_go_okP mline (p_mline e) next_media L [] (length (TL ++ [])) false) as [cl ML].
  { intros w v r I Hr. apply (proj2 (GL _ I)). exact Hr. }
  { intros w v I. destruct (GL _ I) as [[t Et] _]. cbn [fst] in Et. subst. discriminate. }
  { intros w v r I. destruct (GL _ I) as [[t Et] _]. cbn [fst] in Et. subst. reflexivity. }
  { exact I. }
  { reflexivity. }
  { apply le_n. }
  assert (NL : next_media TL).
  { subst TL. destruct L as [|[w v] L']; [exact I|]. cbn [map List.concat fst]. destruct (GL (w, v) (or_introl eq_refl)) as [[t Et] _].
    cbn [fst] in Et. subst w. reflexivity. }
  destruct (many_ok sattr (p_sattr e) A TL) as [ca MA].
  { intros w v r I. apply (GA _ I). }
  { intros w v I. destruct (GA _ I) as [[t Et] _]. cbn [fst] in Et. subst. discriminate. }
  { apply p_sattr_end. apply next_attr. exact NL. }
  fold TA in MA.
  assert (MR : many (typed_line 114 any_value) (TA ++ TL) = POk false [] (TA ++ TL)).
  { apply many_none. subst TA. destruct A as [|[w v] A']; cbn [map List.concat fst app].
    - destruct TL as [|c t]; [reflexivity|]. apply typed_other. cbn in NL. lia.
    - destruct (GA (w, v) (or_introl eq_refl)) as [[t Et] _]. cbn [fst] in Et. subst w. cbn [app]. apply typed_other. discriminate. }
  destruct (bw_read (sd_bw d) (T "t=0 0" ++ crlf ++ TA ++ TL) Hbw) as [cb EB]; [cbn; discriminate|].
  assert (MI : many p_ignored (show_bw (sd_bw d) ++ T "t=0 0" ++ crlf ++ TA ++ TL) = POk false [] (show_bw (sd_bw d) ++ T "t=0 0" ++ crlf ++ TA ++ TL)).
  { apply many_none. destruct (sd_bw d); [change (show_bw (Some b)) with (98 :: T "=" ++ bw_typ b ++ T ":" ++ bw_val b ++ crlf)|]; apply ignored_other; cbn; lia. }
  exists (T "v=0" ++ crlf ++ T "o=str0m-" ++ version ++ T " " ++ dec (sd_id d) ++ T " 2 IN IP4 0.0.0.0" ++ crlf
      ++ T "s=-" ++ crlf ++ show_bw (sd_bw d) ++ T "t=0 0" ++ crlf ++ TA ++ TL), (mkS (sd_id d) (sd_bw d) (map snd A) (map snd L)).
  split; [unfold show_sdp; rewrite EA, EL; reflexivity|]. split; [|constructor; (reflexivity || assumption)].
  unfold p_sdp.
  eapply pbind_okt; [eapply typed_ok with (c := true); reflexivity|].
  eapply pbind_okt; [apply origin_read; exact Hid|].
  eapply pbind_okt; [eapply typed_ok with (c := true); reflexivity|].
  eapply pbind_okf; [exact MI|]. eapply pbind_ok; [exact EB|].
  eapply pbind_okt; [eapply typed_ok with (c := true); reflexivity|].
  eapply pbind_okf; [exact MR|]. eapply pbind_ok; [exact MA|].
  eapply pbind_ok; [|reflexivity]. unfold many. rewrite !app_nil_r in ML. exact ML.
Qed.

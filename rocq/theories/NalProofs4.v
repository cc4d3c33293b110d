From Verif Require Import Base BaseFacts Brute BufRxSpec Vp8Model Vp8Spec Vp8Proofs H264Model H264Spec H264Proofs NalModel NalSpec NalProofs NalProofs2 NalProofs3.

Lemma donl_add_0 d : donl_ok d -> donl_add d 0 = d.
Proof. intro H. destruct d as [v|]; [|reflexivity]. cbn. f_equal. rewrite Z.add_0_r. apply Z.mod_small. exact H. Qed.
Lemma donl_add_add d a b : donl_add (donl_add d a) b = donl_add d (a + b).
Proof. destruct d as [v|]; [|reflexivity]. cbn. f_equal. rewrite Zplus_mod_idemp_l. f_equal. lia. Qed.
Lemma donl_add_ok d a : donl_ok (donl_add d a).
Proof. destruct d as [v|]; [|exact I]. cbn. apply Z.mod_pos_bound. unfold U16. lia. Qed.
Lemma donl_add_dn d a : dn (donl_add d a) = dn d /\ donl_size (donl_add d a) = donl_size d /\ overhead (donl_add d a) = overhead d /\ (d = None -> donl_add d a = None).
Proof. destruct d; repeat split; try reflexivity. discriminate. Qed.
Lemma largest_add c d a mtu : largest c (donl_add d a) mtu = largest c d mtu.
Proof. unfold largest. destruct (donl_add_dn d a) as (_ & -> & _). reflexivity. Qed.
Lemma imarks_app c x a b : imarks c x (a ++ b) = imarks c (imarks c x a) b.
Proof. apply fold_left_app. Qed.

Definition headed (c : nal_codec) (ps : list (list Z)) : Prop := match ps with [] => True | q :: _ => nal_head c q = true end.
Record sent_ok (c : nal_codec) (d : option Z) (mtu : Z) (ps ns : list (list Z)) : Prop := {
  so_feed : forall fb out x, exists fb', feed (nal_depacketize c) (mkNd (dn d) fb) ps out x = (mkNd (dn d) fb', Some (out ++ nframed ns, imarks c x ns));
  so_size : Forall (fun q => 0 < zlen q <= largest c d mtu) ps;
  so_key : d = None -> existsb (nal_detect_key c) ps = existsb (fun n => random_access c (nty c n)) ns;
  so_head : headed c ps;
  so_some : ns <> [] -> ps <> [];
  so_don : forall v, d = Some v -> 0 <= v < U16 -> forall a q b w, ps = a ++ q :: b -> donl_of c q = Some w ->
    exists ds1 ds2, ns = ds1 ++ ds2 /\ w = (v + zlen ds1) mod U16 /\
      forall fb out x, exists fb', feed (nal_depacketize c) (mkNd true fb) a out x = (mkNd true fb', Some (out ++ nframed ds1, imarks c x ds1)) }.
Lemma sent_nil c d mtu : sent_ok c d mtu [] [].
Proof. split; [|constructor|reflexivity|exact I|congruence|]. { intros fb out x. exists fb. cbn. rewrite app_nil_r. reflexivity. } intros v _ _ a q b w E. destruct a; discriminate E. Qed.
Lemma feed_none c need fb a out x : a = [] -> exists fb', feed (nal_depacketize c) (mkNd need fb) a out x = (mkNd need fb', Some (out ++ nframed [], imarks c x [])).
Proof. intros ->. exists fb. cbn [feed]. unfold nframed, framed. cbn [map concat]. rewrite app_nil_r. reflexivity. Qed.
Lemma app_split {A} (ps qs p r : list A) q : ps ++ qs = p ++ q :: r -> (exists p2, ps = p ++ q :: p2) \/ (exists p2, p = ps ++ p2 /\ qs = p2 ++ q :: r).
Proof.
  revert p. induction ps as [|y ps IH]; intros p E; [right; exists p; auto|]. destruct p as [|z p]; cbn [app] in E; injection E as -> E.
  - left. exists ps. reflexivity.
  - destruct (IH p E) as [(p2 & ->)|(p2 & -> & ->)]; [left; exists p2; reflexivity|right; exists p2; auto].
Qed.
Lemma don_first c d q r ns : (forall v, d = Some v -> 0 <= v < U16 -> donl_of c q = Some v /\ Forall (fun q => donl_of c q = None) r) ->
  forall v, d = Some v -> 0 <= v < U16 -> forall a q' b w, q :: r = a ++ q' :: b -> donl_of c q' = Some w ->
    exists ds1 ds2, ns = ds1 ++ ds2 /\ w = (v + zlen ds1) mod U16 /\
      forall fb out x, exists fb', feed (nal_depacketize c) (mkNd true fb) a out x = (mkNd true fb', Some (out ++ nframed ds1, imarks c x ds1)).
Proof.
  intros H v D V a q' b w E W. destruct (H v D V) as (H1 & H2). destruct a as [|y a]; cbn [app] in E.
  - injection E as -> _. rewrite H1 in W. injection W as <-. exists [], ns. split; [reflexivity|]. split; [change (zlen (@nil (list Z))) with 0; rewrite Z.add_0_r; symmetry; apply Z.mod_small; exact V|].
    intros fb out x. apply feed_none. reflexivity.
  - injection E as _ E. rewrite Forall_forall in H2. rewrite (H2 q') in W; [discriminate|]. rewrite E. apply in_app_iff. cbn. auto.
Qed.
Lemma sent_app c d mtu ps qs a b k : k = zlen a -> sent_ok c d mtu ps a -> sent_ok c (donl_add d k) mtu qs b -> sent_ok c d mtu (ps ++ qs) (a ++ b).
Proof.
  intros KA [A1 A2 A3 A4 A5 A6] [B1 B2 B3 B4 B5 B6]. destruct (donl_add_dn d k) as (DN & _ & _ & DE). split.
  - intros fb out x. destruct (A1 fb out x) as (f1 & E1). destruct (B1 f1 (out ++ nframed a) (imarks c x a)) as (f2 & E2). exists f2. rewrite feed_app, E1. rewrite DN in E2. rewrite E2.
    rewrite nframed_app, imarks_app, <- app_assoc. reflexivity.
  - apply Forall_app. split; [exact A2|]. rewrite largest_add in B2. exact B2.
  - intro E. rewrite !existsb_app. rewrite (A3 E), (B3 (DE E)). reflexivity.
  - destruct ps; [exact B4|exact A4].
  - intros NE E. apply app_eq_nil in E. destruct E as [E1 E2]. destruct a; [exact (B5 NE E2)|apply A5; [discriminate|exact E1]].
  - intros v DV V p q r w E W. subst d. change (dn (Some v)) with true in *. destruct (app_split _ _ _ _ _ E) as [(p2 & E1)|(p2 & E1 & E2)].
    + destruct (A6 v eq_refl V p q p2 w E1 W) as (d1 & d2 & E3 & E4 & E5). exists d1, (d2 ++ b). rewrite E3, <- app_assoc. auto.
    + destruct (B6 _ eq_refl ltac:(apply Z.mod_pos_bound; unfold U16; lia) p2 q r w E2 W) as (d1 & d2 & E3 & E4 & E5). exists (a ++ d1), d2. rewrite E3, <- app_assoc. split; [reflexivity|]. split.
      { rewrite E4, Zplus_mod_idemp_l, KA, zlen_app. f_equal. lia. }
      intros fb out x. rewrite E1. destruct (A1 fb out x) as (f1 & F1). destruct (E5 f1 (out ++ nframed a) (imarks c x a)) as (f2 & F2). exists f2. rewrite feed_app, F1, F2.
      rewrite nframed_app, imarks_app, <- app_assoc. reflexivity.
Qed.
Lemma sent_one c d mtu n : nalu c n -> single_size c d n <= mtu <= 1200 -> sent_ok c d mtu [single d n] [n].
Proof.
  intros N M. pose proof N as (_ & L & _). split.
  - intros fb out x. exists fb. destruct (single_round c d fb n out x N) as (S1 & _). cbn [feed]. rewrite S1. reflexivity.
  - constructor; [|constructor]. destruct (single_round c d None n [] None N) as (_ & S2 & _). rewrite S2. unfold largest, single_size in *. destruct c, d; cbn [donl_size overhead] in *; lia.
  - intros _. destruct (single_round c d None n [] None N) as (_ & _ & S3 & _). cbn [existsb]. rewrite S3. reflexivity.
  - destruct (single_round c d None n [] None N) as (_ & _ & _ & S4). exact S4.
  - discriminate.
  - apply don_first. intros v -> V. split; [apply donl_single; assumption|constructor].
Qed.
Lemma sent_unit c d mtu v s p n : nalu c n -> 4 + donl_size d <= mtu <= 1200 -> sent_ok c d mtu (snd (emit_unit c (mkNp v s p d) n mtu)) [n].
Proof.
  intros N M. split.
  - intros fb out x. destruct (unit_ok c d mtu v s p fb n out x N M) as (fb' & _ & U & _). exists fb'. exact U.
  - destruct (unit_ok c d mtu v s p None n [] None N M) as (_ & _ & _ & U & _). exact U.
  - intros _. destruct (unit_ok c d mtu v s p None n [] None N M) as (_ & _ & _ & _ & U & _). rewrite U. cbn [existsb]. rewrite orb_false_r. reflexivity.
  - destruct (unit_ok c d mtu v s p None n [] None N M) as (_ & _ & _ & _ & _ & q & t & E & H). rewrite E. exact H.
  - intros _. destruct (unit_ok c d mtu v s p None n [] None N M) as (_ & _ & _ & _ & _ & q & t & E & H). rewrite E. discriminate.
  - destruct (unit_ok c d mtu v s p None n [] None N M) as (_ & _ & _ & _ & _ & q & t & E & H). rewrite E. apply don_first. intros w -> V. cbn [donl_size] in M.
    destruct (donl_unit c w mtu v s p n N V ltac:(lia)) as (q' & r' & E' & G). rewrite E in E'. injection E' as <- <-. exact G.
Qed.
Lemma fallback_ok c mtu : mtu <= 1200 -> forall ns d, donl_ok d -> Forall (nalu c) ns -> Forall (fun n => single_size c d n <= mtu) ns ->
  fst (fallback c d ns mtu) = donl_add d (zlen ns) /\ sent_ok c d mtu (snd (fallback c d ns mtu)) ns.
Proof.
  intro M. induction ns as [|n ns IH]; intros d DO N F; cbn [fallback].
  - split; [symmetry; apply donl_add_0; exact DO|apply sent_nil].
  - pose proof (Forall_inv F) as F1. cbv beta in F1. replace (single_size c d n <=? mtu) with true by lia.
    destruct (IH (donl_add d 1) (donl_add_ok d 1) (Forall_inv_tail N)) as (I1 & I2).
    { eapply Forall_impl; [|exact (Forall_inv_tail F)]. intros a H. unfold single_size in *. destruct (donl_add_dn d 1) as (_ & _ & -> & _). exact H. }
    destruct (fallback c (donl_add d 1) ns mtu) as [d' ps]. cbn [fst snd] in *. split.
    + rewrite I1, donl_add_add, zlen_cons. reflexivity.
    + apply (sent_app c d mtu [single d n] ps [n] ns 1 eq_refl); [apply sent_one; [exact (Forall_inv N)|lia]|exact I2].
Qed.

Lemma nalu_class c n : nalu c n -> htype c (hd2 n) = nty c n /\ skipped c (nty c n) = isin (nty c n) (dropped_types c) /\ 3 <= zlen n.
Proof.
  intro N. pose proof N as (_ & L & _ & R & _). destruct (nalu_split c n N) as (b0 & b1 & r & -> & _). split; [apply nalu_type; exact N|]. split; [|exact L].
  unfold isin. destruct c; cbn [skipped dropped_types existsb reserved In] in *; [lia|]. destruct (nty Vvc (b0 :: b1 :: r) =? 28) eqn:Q1; [exfalso; apply R; lia|]. destruct (nty Vvc (b0 :: b1 :: r) =? 29) eqn:Q2; [exfalso; apply R; lia|]. lia.
Qed.
Lemma each_fits_incl c d mtu a b : incl a b -> each_fits c d mtu b -> each_fits c d mtu a.
Proof. intros I H n Hn. apply H. apply I. exact Hn. Qed.
Lemma each_fits_add c d k mtu a : each_fits c d mtu a -> each_fits c (donl_add d k) mtu a.
Proof. intros H n Hn T. destruct (donl_add_dn d k) as (_ & -> & _). apply H; assumption. Qed.

Lemma nemits_ok c mtu : mtu <= 1200 -> forall ns h d st pkts h' ds, Forall (nalu c) ns -> holding c h -> donl_ok d -> 4 + donl_size d <= mtu ->
  each_fits c d mtu (held h ++ ns) -> nemits c (mkNp (hv h) (hs h) (hp h) d) ns mtu = (st, pkts) -> delivered c h ns = (h', ds) ->
  st = mkNp (hv h') (hs h') (hp h') (donl_add d (zlen ds)) /\ holding c h' /\ sent_ok c d mtu pkts ds.
Proof.
  intro M. induction ns as [|n ns IH]; intros h d st pkts h' ds F HO DO MD EF E D.
  { cbn in E, D. injection E as <- <-. injection D as <- <-. change (zlen (@nil (list Z))) with 0. rewrite donl_add_0 by exact DO. split; [reflexivity|]. split; [exact HO|apply sent_nil]. }
  pose proof (Forall_inv F) as N. pose proof (Forall_inv_tail F) as F'. destruct (nalu_class c n N) as (T & SK & L).
  cbn [nemits] in E. cbn [delivered] in D. unfold emit_nalu in E. assert (0 <= donl_size d) by (destruct d; cbn; lia). replace ((mtu =? 0) || (zlen n <? 2)) with false in E by lia. rewrite T in E. cbv zeta in E. rewrite SK in E.
  cbn [n_vps n_sps n_pps n_donl] in E. change (t_vps c) with (vps_type c) in E. change (t_sps c) with (sps_type c) in E. change (t_pps c) with (pps_type c) in E.
  assert (forall v s p, incl (held (mkSets v s p)) (held h ++ [n]) -> incl (held (mkSets v s p) ++ ns) (held h ++ n :: ns)) as INC.
  { intros v s p I y Hy. apply in_app_iff in Hy. destruct Hy as [Hy|Hy]; [apply I in Hy; rewrite !in_app_iff in *; cbn in *; tauto|rewrite in_app_iff; cbn; tauto]. }
  destruct (isin (nty c n) (dropped_types c)) eqn:Q1.
  { destruct (nemits c (mkNp (hv h) (hs h) (hp h) d) ns mtu) as [st2 qs] eqn:E2. injection E as <- <-. cbn [app].
    apply (IH h d st2 qs h' ds F' HO DO MD); auto. eapply each_fits_incl; [|exact EF]. intros y Hy. rewrite in_app_iff in *. cbn. tauto. }
  destruct HO as (HV & HS & HP).
  destruct (nty c n =? vps_type c) eqn:Q2.
  { destruct (nemits c (mkNp (Some n) (hs h) (hp h) d) ns mtu) as [st2 qs] eqn:E2. injection E as <- <-. cbn [app].
    apply (IH (mkSets (Some n) (hs h) (hp h)) d st2 qs h' ds F'); auto.
    - split; [|split; assumption]. constructor; [|constructor]. split; [exact N|lia].
    - eapply each_fits_incl; [|exact EF]. apply INC. intros y Hy. unfold held in *. cbn [hv hs hp oset] in *. rewrite !in_app_iff in *. cbn in *. tauto. }
  destruct (nty c n =? sps_type c) eqn:Q3.
  { destruct (nemits c (mkNp (hv h) (Some n) (hp h) d) ns mtu) as [st2 qs] eqn:E2. injection E as <- <-. cbn [app].
    apply (IH (mkSets (hv h) (Some n) (hp h)) d st2 qs h' ds F'); auto.
    - split; [exact HV|split; [|exact HP]]. constructor; [|constructor]. split; [exact N|lia].
    - eapply each_fits_incl; [|exact EF]. apply INC. intros y Hy. unfold held in *. cbn [hv hs hp oset] in *. rewrite !in_app_iff in *. cbn in *. tauto. }
  destruct (nty c n =? pps_type c) eqn:Q4.
  { destruct (nemits c (mkNp (hv h) (hs h) (Some n) d) ns mtu) as [st2 qs] eqn:E2. injection E as <- <-. cbn [app].
    apply (IH (mkSets (hv h) (hs h) (Some n)) d st2 qs h' ds F'); auto.
    - split; [exact HV|split; [exact HS|]]. constructor; [|constructor]. split; [exact N|lia].
    - eapply each_fits_incl; [|exact EF]. apply INC. intros y Hy. unfold held in *. cbn [hv hs hp oset] in *. rewrite !in_app_iff in *. cbn in *. tauto. }
  assert (match hs h, hp h with Some _, Some _ => True | _, _ => False end \/ match hs h, hp h with Some _, Some _ => False | _, _ => True end) as [B|B] by (destruct (hs h), (hp h); tauto).
  - destruct (hs h) as [s|] eqn:ES; [|tauto]. destruct (hp h) as [p|] eqn:EP; [|tauto]. unfold flush_sets in E. cbn [n_vps n_sps n_pps n_donl] in E. cbv zeta in E.
    assert (held h = oset (hv h) ++ [s; p]) as HE by (unfold held; rewrite ES, EP; reflexivity). rewrite <- HE in E.
    assert (Forall (nalu c) (held h)) as NH.
    { rewrite HE. apply Forall_app. split; [eapply Forall_impl; [|exact HV]; intros a [H1 _]; exact H1|]. constructor; [apply (Forall_inv HS)|]. constructor; [apply (Forall_inv HP)|constructor]. }
    assert (Forall (fun n => single_size c d n <= mtu) (held h)) as FH.
    { apply Forall_forall. intros a Ha. specialize (EF a ltac:(apply in_app_iff; tauto)). unfold single_size. assert (overhead d = donl_size d) as -> by (destruct d; reflexivity).
      assert (In (nty c a) (set_types c)) as TA. { rewrite HE in Ha. apply in_app_iff in Ha. unfold set_types. destruct Ha as [Ha|[<-|[<-|[]]]].
        - rewrite Forall_forall in HV. destruct (HV a Ha) as [_ ->]. left. reflexivity.
        - destruct (Forall_inv HS) as [_ ->]. right. left. reflexivity.
        - destruct (Forall_inv HP) as [_ ->]. right. right. left. reflexivity. }
      specialize (EF TA). lia. }
    assert (exists ps, match ap c n (held h) d mtu with Some pkt => (mkNp None None None (donl_add d (zlen (held h))), [pkt]) | None => let (d, ps) := fallback c d (held h) mtu in (mkNp None None None d, ps) end =
      (mkNp None None None (donl_add d (zlen (held h))), ps) /\ sent_ok c d mtu ps (held h)) as (ps & E1 & SO).
    { destruct (ap c n (held h) d mtu) as [pkt|] eqn:EA.
      - exists [pkt]. split; [reflexivity|]. assert (2 <= length (held h))%nat as L2 by (rewrite HE, app_length; cbn [length]; lia). split.
        + intros fb out x. exists fb. destruct (ap_ok c d mtu n (held h) pkt fb out x N NH L2 ltac:(lia) EA) as (A & _). cbn [feed]. rewrite A. reflexivity.
        + constructor; [|constructor]. destruct (ap_ok c d mtu n (held h) pkt None [] None N NH L2 ltac:(lia) EA) as (_ & A & _). unfold largest. destruct c; lia.
        + intro DE. destruct (ap_ok c d mtu n (held h) pkt None [] None N NH L2 ltac:(lia) EA) as (_ & _ & A & _). cbn [existsb]. rewrite (A DE). apply orb_false_r.
        + destruct (ap_ok c d mtu n (held h) pkt None [] None N NH L2 ltac:(lia) EA) as (_ & _ & _ & A & _). exact A.
        + discriminate.
        + apply don_first. intros v DV V. destruct (ap_ok c d mtu n (held h) pkt None [] None N NH L2 ltac:(lia) EA) as (_ & _ & _ & _ & A). split; [exact (A v DV V)|constructor].
      - destruct (fallback_ok c mtu M (held h) d DO NH FH) as (A & SO). destruct (fallback c d (held h) mtu) as [d' ps]. cbn [fst snd] in *. subst d'. exists ps. split; [reflexivity|exact SO]. }
    rewrite E1 in E. set (k := zlen (held h)) in *. destruct (donl_add_dn d k) as (_ & DS & _).
    destruct (unit_ok c (donl_add d k) mtu None None None None n [] None N ltac:(rewrite DS; lia)) as (_ & U0 & _).
    pose proof (sent_unit c (donl_add d k) mtu None None None n N ltac:(rewrite DS; lia)) as SU.
    destruct (emit_unit c (mkNp None None None (donl_add d k)) n mtu) as [st1 ups]. cbn [fst snd] in U0, SU. subst st1. rewrite donl_add_add in E.
    destruct (nemits c (mkNp None None None (donl_add d (k + 1))) ns mtu) as [st2 qs] eqn:E2. injection E as <- <-.
    destruct (delivered c (mkSets None None None) ns) as [h2 d2] eqn:D2. injection D as <- <-. destruct (donl_add_dn d (k + 1)) as (_ & DS1 & _).
    destruct (IH (mkSets None None None) (donl_add d (k + 1)) st2 qs h2 d2 F') as (I0 & I1 & I2); auto.
    { repeat split; constructor. } { apply donl_add_ok. } { rewrite DS1. exact MD. }
    { apply each_fits_add. eapply each_fits_incl; [|exact EF]. intros y Hy. rewrite in_app_iff. cbn in *. tauto. }
    split; [|split; [exact I1|]].
    + rewrite I0, donl_add_add, zlen_app, zlen_cons. fold k. f_equal. f_equal. lia.
    + rewrite <- app_assoc. apply (sent_app c d mtu ps (ups ++ qs) (held h) (n :: d2) k eq_refl); [exact SO|]. change (n :: d2) with ([n] ++ d2).
      apply (sent_app c (donl_add d k) mtu ups qs [n] d2 1 eq_refl); [exact SU|]. rewrite donl_add_add. exact I2.
  - assert (flush_sets c (mkNp (hv h) (hs h) (hp h) d) n mtu = (mkNp (hv h) (hs h) (hp h) d, [])) as FE by (unfold flush_sets; cbn [n_sps n_pps]; destruct (hs h), (hp h); tauto).
    rewrite FE in E.
    assert ((let (h'0, d0) := delivered c h ns in (h'0, n :: d0)) = (h', ds)) as D' by (destruct (hs h), (hp h); tauto). clear D.
    destruct (unit_ok c d mtu (hv h) (hs h) (hp h) None n [] None N ltac:(lia)) as (_ & U0 & _).
    pose proof (sent_unit c d mtu (hv h) (hs h) (hp h) n N ltac:(lia)) as SU.
    destruct (emit_unit c (mkNp (hv h) (hs h) (hp h) d) n mtu) as [st1 ups]. cbn [fst snd] in U0, SU. subst st1.
    destruct (nemits c (mkNp (hv h) (hs h) (hp h) (donl_add d 1)) ns mtu) as [st2 qs] eqn:E2. injection E as <- <-.
    destruct (delivered c h ns) as [h2 d2] eqn:D2. injection D' as <- <-. destruct (donl_add_dn d 1) as (_ & DS1 & _).
    destruct (IH h (donl_add d 1) st2 qs h2 d2 F') as (I0 & I1 & I2); auto.
    { repeat split; assumption. } { apply donl_add_ok. } { rewrite DS1. exact MD. }
    { apply each_fits_add. eapply each_fits_incl; [|exact EF]. intros y Hy. rewrite in_app_iff in *. cbn in *. tauto. }
    split; [|split; [exact I1|]].
    + rewrite I0, donl_add_add, zlen_cons. reflexivity.
    + cbn [app]. change (n :: d2) with ([n] ++ d2). apply (sent_app c d mtu ups qs [n] d2 1 eq_refl); [exact SU|exact I2].
Qed.

Lemma imarks_some c ns : forall k, imarks c (Some k) ns = Some (k || existsb (fun n => random_access c (nty c n)) ns).
Proof.
  induction ns as [|n ns IH]; intro k; [cbn; rewrite orb_false_r; reflexivity|]. change (imarks c (Some k) (n :: ns)) with (imarks c (Some (random_access c (nty c n) || k)) ns). rewrite IH. cbn [existsb].
  f_equal. rewrite orb_assoc, (orb_comm k). reflexivity.
Qed.
Lemma imarks_none c ns : imarks c None ns = match ns with [] => None | _ => Some (existsb (fun n => random_access c (nty c n)) ns) end.
Proof. destruct ns as [|n ns]; [reflexivity|]. change (imarks c None (n :: ns)) with (imarks c (Some (random_access c (nty c n))) ns). apply imarks_some. Qed.

Lemma order_delivered c ns : in_order c ns -> delivered c (mkSets None None None) ns = (mkSets None None None, ns).
Proof.
  assert (forall n, ~ In (nty c n) (set_types c ++ dropped_types c) -> isin (nty c n) (dropped_types c) = false /\ (nty c n =? vps_type c) = false /\ (nty c n =? sps_type c) = false /\ (nty c n =? pps_type c) = false) as NC.
  { intros n NI. unfold isin. destruct c; cbn [set_types dropped_types vps_type sps_type pps_type app In existsb] in *; lia. }
  assert (forall n, nty c n = vps_type c -> isin (nty c n) (dropped_types c) = false) as V1 by (intros n ->; destruct c; reflexivity).
  assert (forall n, nty c n = sps_type c -> isin (nty c n) (dropped_types c) = false /\ (nty c n =? vps_type c) = false) as V2 by (intros n ->; destruct c; split; reflexivity).
  assert (forall n, nty c n = pps_type c -> isin (nty c n) (dropped_types c) = false /\ (nty c n =? vps_type c) = false /\ (nty c n =? sps_type c) = false) as V3 by (intros n ->; destruct c; repeat split; reflexivity).
  induction 1 as [|n r NI _ IH|s p n r TS TP NI _ IH|v s p n r TV TS TP NI _ IH]; [reflexivity| | |]; destruct (NC n NI) as (N1 & N2 & N3 & N4).
  - cbn [delivered]. rewrite N1, N2, N3, N4. cbn [hs hp]. rewrite IH. reflexivity.
  - destruct (V2 s TS) as (A1 & A2). destruct (V3 p TP) as (B1 & B2 & B3). cbn [delivered]. rewrite A1, A2, TS, Z.eqb_refl. rewrite B1, B2, B3, TP, Z.eqb_refl. rewrite N1, N2, N3, N4. cbn [hv hs hp held oset app]. rewrite IH. reflexivity.
  - pose proof (V1 v TV) as C1. destruct (V2 s TS) as (A1 & A2). destruct (V3 p TP) as (B1 & B2 & B3). cbn [delivered]. rewrite C1, TV, Z.eqb_refl. rewrite A1, A2, TS, Z.eqb_refl. rewrite B1, B2, B3, TP, Z.eqb_refl. rewrite N1, N2, N3, N4.
    cbn [hv hs hp held oset app]. rewrite IH. reflexivity.
Qed.

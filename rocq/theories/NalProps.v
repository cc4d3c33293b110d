(** C32 for H.265 and H.266.  Statements only. *)
From Verif Require Import Base BaseFacts BufRxSpec Vp8Model Vp8Spec H264Model H264Spec H264Proofs NalModel NalSpec NalProofs NalProofs2 NalProofs3 NalProofs4 NalRecv.

(** For either codec, every sequence of NAL units in an Annex B stream, every MTU with room for a fragment that
    holds each parameter set, with or without DONL, and whatever parameter sets are held back from before:
    packetizing succeeds, every payload fits, the DONL counter advances by one per unit, and feeding the payloads
    to a depacketizer with the same DONL setting, whatever it had left over, gives exactly the delivered units;
    the frame is reported as a key frame exactly if one of them is a random access picture, and without DONL
    exactly then some payload is detected as one; the first payload starts a frame. *)
Theorem C32_h265_h266_round_trip : forall c mtu us h d fb,
  4 + donl_size d <= mtu -> us <> [] -> Forall (nalu c) (map snd us) -> Forall (fun u => code_ok c (fst u)) us ->
  holding c h -> donl_ok d -> each_fits c d mtu (held h ++ map snd us) ->
  let need := match d with Some _ => true | None => false end in
  let ds := snd (delivered c h (map snd us)) in
  let key := existsb (fun n => random_access c (nty c n)) ds in
  exists h' d' pkts, nal_packetize c (mkNp (hv h) (hs h) (hp h) d) mtu (annex_b us) = Ok (mkNp (hv h') (hs h') (hp h') d', pkts) /\
    h' = fst (delivered c h (map snd us)) /\ holding c h' /\
    d' = option_map (fun v => (v + zlen ds) mod 65536) d /\
    Forall (fun q => 0 < zlen q <= largest c d mtu) pkts /\
    (exists fb', feed (nal_depacketize c) (mkNd need fb) pkts [] None =
      (mkNd need fb', Some (framed false ds, match ds with [] => None | _ => Some key end))) /\
    (d = None -> existsb (nal_detect_key c) pkts = key) /\
    match pkts with [] => ds = [] | q :: _ => nal_head c q = true end.
Proof.
  intros c mtu us h d fb M NE F K HO DO EF. cbv zeta. assert (0 <= donl_size d <= 2) as DZ by (destruct d; cbn; lia). rewrite nal_packetize_annex by (assumption || lia).
  destruct (nemits c (mkNp (hv h) (hs h) (hp h) d) (map snd us) (Z.min mtu 1200)) as [st pkts] eqn:E. destruct (delivered c h (map snd us)) as [h' ds] eqn:D.
  destruct (nemits_ok c (Z.min mtu 1200) ltac:(lia) _ h d st pkts h' ds F HO DO ltac:(lia)) as (A & B & [C1 C2 C3 C4 C5 _]); [|exact E|exact D|].
  { intros n Hn T. specialize (EF n Hn T). lia. }
  cbn [fst snd] in *. subst st. exists h', (donl_add d (zlen ds)), pkts. split; [reflexivity|]. split; [reflexivity|]. split; [exact B|]. split; [reflexivity|]. split; [|split; [|split; [exact C3|]]].
  - eapply Forall_impl; [|exact C2]. intros q H. cbv beta in H. unfold largest in *. destruct c; lia.
  - destruct (C1 fb [] None) as (fb' & C). exists fb'. rewrite imarks_none in C. exact C.
  - destruct pkts; [|exact C4]. destruct ds; [reflexivity|]. exfalso. apply C5; [discriminate|reflexivity].
Qed.
Print Assumptions C32_h265_h266_round_trip.

(** The same for a single unit without any start code. *)
Theorem C32_h265_h266_bare_unit : forall c mtu n d fb,
  4 + donl_size d <= mtu -> nalu c n -> donl_ok d -> ~ In (nty c n) (set_types c ++ dropped_types c) ->
  let need := match d with Some _ => true | None => false end in
  exists pkts fb', nal_packetize c (mkNp None None None d) mtu n = Ok (mkNp None None None (option_map (fun v => (v + 1) mod 65536) d), pkts) /\
    fit (largest c d mtu) pkts /\
    feed (nal_depacketize c) (mkNd need fb) pkts [] None = (mkNd need fb', Some (start_code ++ n, Some (random_access c (nty c n)))).
Proof.
  intros c mtu n d fb M N DO NI. cbv zeta. assert (0 <= donl_size d <= 2) as DZ by (destruct d; cbn; lia). rewrite nal_packetize_bare by (assumption || lia).
  destruct (nemits c (mkNp None None None d) [n] (Z.min mtu 1200)) as [st pkts] eqn:E.
  assert (delivered c (mkSets None None None) [n] = (mkSets None None None, [n])) as D by (apply order_delivered; constructor; [exact NI|constructor]).
  destruct (nemits_ok c (Z.min mtu 1200) ltac:(lia) [n] (mkSets None None None) d st pkts (mkSets None None None) [n] (Forall_cons _ N (Forall_nil _))) as (A & B & [C1 C2 C3 C4 C5 _]); [repeat split; constructor|exact DO|lia| |exact E|exact D|].
  { intros m [<-|[]] T. exfalso. apply NI. apply in_app_iff. left. exact T. }
  destruct (C1 fb [] None) as (fb' & C). exists pkts, fb'. subst st. split; [reflexivity|]. split; [split|].
  - apply C5. discriminate.
  - eapply Forall_impl; [|exact C2]. intros q H. cbv beta in H. unfold largest in *. destruct c; lia.
  - rewrite imarks_none in C. cbn [existsb] in C. rewrite orb_false_r in C. change (dn d) with (match d with Some _ => true | None => false end) in C. rewrite C, nframed_one. reflexivity.
Qed.
Print Assumptions C32_h265_h266_bare_unit.

(** If the parameter sets come in order before another unit, as encoders emit them, nothing is lost, added or
    reordered. *)
Theorem C32_h265_h266_lossless : forall c mtu us d fb,
  4 + donl_size d <= mtu -> us <> [] -> Forall (nalu c) (map snd us) -> Forall (fun u => code_ok c (fst u)) us ->
  donl_ok d -> each_fits c d mtu (map snd us) -> in_order c (map snd us) ->
  let need := match d with Some _ => true | None => false end in
  exists d' pkts fb', nal_packetize c (mkNp None None None d) mtu (annex_b us) = Ok (mkNp None None None d', pkts) /\ fit (largest c d mtu) pkts /\
    feed (nal_depacketize c) (mkNd need fb) pkts [] None =
      (mkNd need fb', Some (framed false (map snd us), Some (existsb (fun n => random_access c (nty c n)) (map snd us)))).
Proof.
  intros c mtu us d fb M NE F K DO EF IO. cbv zeta. pose proof (order_delivered c _ IO) as D.
  destruct (C32_h265_h266_round_trip c mtu us (mkSets None None None) d fb M NE F K ltac:(repeat split; constructor) DO EF) as (h' & d' & pkts & E & HS & _ & _ & G & (fb' & H) & _ & HD).
  rewrite D in *. cbn [fst snd] in *. subst h'. exists d', pkts, fb'. split; [exact E|].
  assert (map snd us <> []) as NM by (destruct us; [congruence|discriminate]). split.
  - split; [|exact G]. intros ->. congruence.
  - rewrite H. destruct (map snd us); [congruence|reflexivity].
Qed.
Print Assumptions C32_h265_h266_lossless.

(** With DONL on: a packet that carries a decoding order number carries the number of the next unit: the counter
    before the call plus the units completed by the packets before it. *)
Theorem C32_h265_h266_decoding_order : forall c mtu us h v fb,
  6 <= mtu -> us <> [] -> Forall (nalu c) (map snd us) -> Forall (fun u => code_ok c (fst u)) us ->
  holding c h -> 0 <= v < 65536 -> each_fits c (Some v) mtu (held h ++ map snd us) ->
  forall st pkts, nal_packetize c (mkNp (hv h) (hs h) (hp h) (Some v)) mtu (annex_b us) = Ok (st, pkts) ->
  forall a q b w, pkts = a ++ q :: b -> donl_of c q = Some w ->
  exists ds1 ds2 fb' x, snd (delivered c h (map snd us)) = ds1 ++ ds2 /\ w = (v + zlen ds1) mod 65536 /\
    feed (nal_depacketize c) (mkNd true fb) a [] None = (mkNd true fb', Some (framed false ds1, x)).
Proof.
  intros c mtu us h v fb M NE F K HO DO EF st pkts E a q b w EP W. rewrite nal_packetize_annex in E by (assumption || lia).
  assert (forall A (u v : A), Ok u = Ok v -> u = v) as INJ by congruence. apply INJ in E. destruct (delivered c h (map snd us)) as [h' ds] eqn:D.
  destruct (nemits_ok c (Z.min mtu 1200) ltac:(lia) _ h (Some v) st pkts h' ds F HO DO ltac:(cbn; lia)) as (A & B & [_ _ _ _ _ C]); [|exact E|exact D|].
  { intros n Hn T. specialize (EF n Hn T). lia. }
  destruct (C v eq_refl DO a q b w EP W) as (d1 & d2 & E1 & E2 & E3). destruct (E3 fb [] None) as (fb' & E4). eexists d1, d2, fb', _. split; [exact E1|]. split; [exact E2|exact E4].
Qed.
Print Assumptions C32_h265_h266_decoding_order.

(** Whatever way a conforming sender packs the units (single packets, aggregates, fragments of any sizes), whatever
    decoding order numbers it writes, and whatever was received before: the units come out, in order and
    unchanged, and the frame is a key frame exactly if one of them is a random access picture. *)
Theorem C32_h265_h266_depacketize : forall c need ps us fb, carried c need ps us -> exists fb',
  feed (nal_depacketize c) (mkNd need fb) ps [] None =
    (mkNd need fb', Some (framed false us, match us with [] => None | _ => Some (existsb (fun n => random_access c (nty c n)) us) end)).
Proof. intros c need ps us fb H. destruct (recv_all c need ps us H fb [] None) as (fb' & E). exists fb'. rewrite imarks_none in E. exact E. Qed.
Print Assumptions C32_h265_h266_depacketize.
(** An aggregate of an SPS and a PPS with DOND, then an IDR slice in three fragments, then a single slice. *)
Example carried_265 : carried Hevc true
  [[96; 1; 3; 4; 0; 3; 66; 1; 7; 250; 0; 3; 68; 1; 8]; [98; 1; 147; 5; 6; 9]; [98; 1; 19; 9; 9]; [98; 1; 83; 8]; [2; 1; 0; 7; 5]]
  [[66; 1; 7]; [68; 1; 8]; [38; 1; 9; 9; 9; 8]; [2; 1; 5]].
Proof.
  eapply (carried_aggregate Hevc true 96 1 [3; 4] [0; 3; 66; 1; 7; 250; 0; 3; 68; 1; 8] [[66; 1; 7]; [68; 1; 8]]); try (red; cbn; lia); try (cbn; lia); try reflexivity.
  - repeat constructor; cbn; lia.
  - cbn [aggregated]. exists [], [250; 0; 3; 68; 1; 8]. split; [reflexivity|]. split; [reflexivity|]. exists [250], []. repeat split; reflexivity.
  - eapply (carried_fragments Hevc true 38 1 [9] [5; 6] [[98; 1; 19; 9; 9]; [98; 1; 83; 8]] [[9; 9]; [8]] false); try (red; cbn; lia); try (cbn; lia); try discriminate; try reflexivity.
    + apply (frag_more Hevc [98; 1] 19 false [9; 9]); [discriminate|]. apply (frag_last Hevc [98; 1] 19 false [8]). discriminate.
    + eapply (carried_single Hevc true 2 1 [5] [0; 7]); try (red; cbn; lia); try (cbn; lia); try discriminate; try reflexivity; [repeat constructor; cbn; lia|constructor].
Qed.

(** Whatever arrives, in any state: what was delivered before stays, and with it the DONL setting. *)
Theorem C32_h265_h266_append_only : forall c s packet out x s' o y, nal_depacketize c s packet out x = (s', Some (o, y)) ->
  might_need_donl s' = might_need_donl s /\ exists add, o = out ++ add.
Proof.
  intros c s packet out x s' o y E. unfold nal_depacketize in E. destruct (zlen packet <=? 2); [discriminate|]. destruct (hf _); [discriminate|].
  destruct (match c with Hevc => _ | Vvc => false end).
  { injection E as <- E. split; [reflexivity|]. unfold dep_paci in E. destruct (skipn 2 packet) as [|? [|? r]]; try discriminate. destruct (zlen r <=? 0); [discriminate|]. destruct (zlen r <? _); [discriminate|]. injection E as <- <-. eauto. }
  destruct (_ =? t_fu c).
  { unfold dep_fu in E. destruct (skipn 2 packet) as [|f d]; [discriminate|]. cbv zeta in E. destruct (zlen d <? _); [discriminate|]. destruct (_ && _); [discriminate|]. injection E as <- E. split; [reflexivity|].
    destruct (bit f 64); [|injection E as <- <-; exists []; rewrite app_nil_r; reflexivity]. destruct (option_map _ _); injection E as <- <-; [eauto|exists []; rewrite app_nil_r; reflexivity]. }
  destruct (_ =? t_ap c).
  { injection E as <- E. split; [reflexivity|]. unfold dep_ap in E. destruct c.
    - assert (forall fuel f r out x k o y n, ap_loop265 fuel (might_need_donl s) f r out x k = (o, y, n) -> exists add, o = out ++ add) as A.
      { clear. induction fuel as [|fuel IH]; intros f r out x k o y n E; [injection E as <- <- <-; exists []; rewrite app_nil_r; reflexivity|]. cbn [ap_loop265] in E.
        destruct r as [|b r]; [injection E as <- <- <-; exists []; rewrite app_nil_r; reflexivity|]. destruct (zlen (b :: r) <? _); [injection E as <- <- <-; exists []; rewrite app_nil_r; reflexivity|].
        destruct (skipn _ (b :: r)) as [|? [|? q]]; [injection E as <- <- <-; exists []; rewrite app_nil_r; reflexivity|injection E as <- <- <-; exists []; rewrite app_nil_r; reflexivity|]. cbv zeta in E.
        destruct (zlen q <? _); [injection E as <- <- <-; exists []; rewrite app_nil_r; reflexivity|]. apply IH in E. destruct E as (add & ->). rewrite <- !app_assoc. eauto. }
      destruct (ap_loop265 _ _ _ _ _ _ _) as [[o' y'] n] eqn:EL. destruct (n <? 2); [discriminate|]. destruct (ap_struct _ _); [|discriminate]. injection E as <- <-. eapply A. exact EL.
    - destruct (_ && _); [discriminate|].
      assert (forall fuel r out x k o y n, ap_loop266 fuel r out x k = Some (o, y, n) -> exists add, o = out ++ add) as A.
      { clear. induction fuel as [|fuel IH]; intros r out x k o y n E; [injection E as <- <- <-; exists []; rewrite app_nil_r; reflexivity|]. cbn [ap_loop266] in E.
        destruct r as [|b [|b' q]]; [injection E as <- <- <-; exists []; rewrite app_nil_r; reflexivity|discriminate|]. cbv zeta in E.
        destruct (_ || _); [discriminate|]. destruct (_ || _); [discriminate|]. apply IH in E. destruct E as (add & ->). rewrite <- !app_assoc. eauto. }
      destruct (ap_loop266 _ _ _ _ _) as [[[o' y'] n]|] eqn:EL; [|discriminate]. destruct (n <? 2); [discriminate|]. injection E as <- <-. eapply A. exact EL. }
  injection E as <- E. split; [reflexivity|]. unfold dep_single in E. destruct (_ && _); [discriminate|]. injection E as <- <-. eauto.
Qed.
Print Assumptions C32_h265_h266_append_only.

(** Packetizing never panics, whatever the bytes and the MTU. *)
Lemma scan_bounds start : forall l i z s n, scan start l i z = Some (s, n) -> 0 <= z <= i -> start <= s /\ 0 < n /\ s + n <= start + i + zlen l.
Proof.
  induction l as [|b l IH]; intros i z s n E H; [discriminate|]. cbn [scan] in E. rewrite zlen_cons. pose proof (zlen_nonneg l).
  destruct (b =? 0); [apply IH in E; lia|]. destruct ((b =? 1) && (2 <=? z)); [injection E as <- <-; lia|apply IH in E; lia].
Qed.
Lemma scan266_bounds : forall l i s n, scan266 i l = Some (s, n) -> i <= s /\ 0 < n /\ s + n <= i + zlen l.
Proof.
  induction l as [|a l IH]; intros i s n E; [discriminate|]. cbn [scan266] in E. destruct l as [|b [|c r]]; try discriminate E.
  destruct ((a =? 0) && (b =? 0) && (c =? 1)).
  - injection E as <- <-. rewrite !zlen_cons. pose proof (zlen_nonneg r). lia.
  - destruct r as [|e r]; cbv iota in E.
    + rewrite andb_false_r in E. apply IH in E. rewrite (zlen_cons a). lia.
    + destruct ((a =? 0) && (b =? 0) && (c =? 0) && (e =? 1)).
      * injection E as <- <-. rewrite !zlen_cons. pose proof (zlen_nonneg r). lia.
      * apply IH in E. rewrite (zlen_cons a). lia.
Qed.
Lemma next_bounds c payload start : 0 <= start <= zlen payload -> exists r, next_code c payload start = Ok r /\
  match r with Some (s, n) => start <= s /\ 0 < n /\ s + n <= zlen payload | None => True end.
Proof.
  intro H. assert (zlen (skipn (Z.to_nat start) payload) = zlen payload - start) as ZS by (unfold zlen in *; rewrite skipn_length; lia).
  destruct c; unfold next_code, from.
  - replace ((start <? 0) || _) with false by lia. cbn [bind]. eexists. split; [reflexivity|].
    destruct (scan start (skipn (Z.to_nat start) payload) 0 0) as [[s n]|] eqn:E; [|exact I]. apply scan_bounds in E; lia.
  - eexists. split; [reflexivity|]. destruct (scan266 start (skipn (Z.to_nat start) payload)) as [[s n]|] eqn:E; [|exact I]. apply scan266_bounds in E. lia.
Qed.
Theorem C32_h265_h266_never_panics : forall c st mtu payload, exists st' pkts, nal_packetize c st mtu payload = Ok (st', pkts).
Proof.
  intros c st mtu payload. unfold nal_packetize. pose proof (zlen_nonneg payload). destruct (_ || _); [eauto|]. destruct (_ && _); [eauto|].
  destruct (next_bounds c payload 0 ltac:(lia)) as (r & -> & B). cbn [bind]. destruct r as [[s n]|]; [|destruct (emit_nalu c st payload _); eauto].
  set (m := if max_packet <? mtu then max_packet else mtu). clearbody m. generalize (S (length payload)) as fuel. intro fuel. 
  assert (forall fuel st ind, match ind with Some (s, n) => 0 <= s + n <= zlen payload | None => True end -> exists st' pkts, walk fuel c st payload m ind = Ok (st', pkts)) as W.
  { clear. induction fuel as [|fuel IH]; intros st ind B; [eexists _, _; reflexivity|]. cbn [walk]. destruct ind as [[s n]|]; [|eauto].
    destruct (next_bounds c payload (s + n) B) as (r & -> & B2). cbn [bind]. destruct r as [[s2 n2]|].
    - unfold slice. replace ((s + n <? 0) || (s2 <? s + n) || (zlen payload <? s2)) with false by lia. cbn [bind]. destruct (emit_nalu c st _ m) as [st' ps].
      destruct (IH st' (Some (s2, n2))) as (st2 & qs & ->); [lia|]. cbn [bind]. eauto.
    - unfold from. replace ((s + n <? 0) || (zlen payload <? s + n)) with false by lia. cbn [bind]. destruct (emit_nalu c st _ m) as [st' ps].
      destruct (IH st' None I) as (st2 & qs & ->). cbn [bind]. eauto. }
  apply W. lia.
Qed.
Print Assumptions C32_h265_h266_never_panics.

(** The same for H.264. *)
Theorem C32_h264_packetize_never_panics : forall st mtu payload, exists st' pkts, h264_packetize st mtu payload = Ok (st', pkts).
Proof.
  intros st mtu payload. unfold h264_packetize. pose proof (zlen_nonneg payload). destruct (_ || _); [eauto|].
  destruct (next_bounds Hevc payload 0 ltac:(lia)) as (r & ER & B). change (next_code Hevc payload 0) with (next_ind payload 0) in ER. rewrite ER. cbn [bind].
  destruct r as [[s n]|]; [|destruct (emit st payload mtu); eauto]. generalize (S (length payload)) as fuel. intro fuel.
  assert (forall fuel st ind, match ind with Some (s, n) => 0 <= s + n <= zlen payload | None => True end -> exists st' pkts, emit_loop fuel st payload mtu ind = Ok (st', pkts)) as W.
  { clear. induction fuel as [|fuel IH]; intros st ind B; [eexists _, _; reflexivity|]. cbn [emit_loop]. destruct ind as [[s n]|]; [|eauto].
    destruct (next_bounds Hevc payload (s + n) B) as (r & ER & B2). change (next_code Hevc payload (s + n)) with (next_ind payload (s + n)) in ER. rewrite ER. cbn [bind]. destruct r as [[s2 n2]|].
    - unfold slice. replace ((s + n <? 0) || (s2 <? s + n) || (zlen payload <? s2)) with false by lia. cbn [bind]. destruct (emit st _ mtu) as [st' ps].
      destruct (IH st' (Some (s2, n2))) as (st2 & qs & ->); [lia|]. cbn [bind]. eauto.
    - unfold from. replace ((s + n <? 0) || (zlen payload <? s + n)) with false by lia. cbn [bind]. destruct (emit st _ mtu) as [st' ps].
      destruct (IH st' None I) as (st2 & qs & ->). cbn [bind]. eauto. }
  apply W. lia.
Qed.
Print Assumptions C32_h264_packetize_never_panics.

(** The structure behind the depacketizer's [payload] accessor holds the same units the depacketizer wrote, for
    every aggregate it accepts. *)
Lemma ap_same d : forall fuel fuel2 r first out x k o y n, ap_loop265 fuel d first r out x k = (o, y, n) -> first = false -> (length r <= fuel)%nat -> (length r <= fuel2)%nat ->
  o = out ++ framed false (ap_others fuel2 d r) /\ n = k + zlen (ap_others fuel2 d r).
Proof.
  induction fuel as [|fuel IH]; intros fuel2 r first out x k o y n E F L1 L2; subst first.
  { destruct r; [|cbn in L1; lia]. cbn in E. injection E as <- <- <-. assert (ap_others fuel2 d [] = []) as -> by (destruct fuel2, d; reflexivity). cbn. rewrite app_nil_r. split; [reflexivity|lia]. }
  cbn [ap_loop265] in E. destruct r as [|b r].
  { injection E as <- <- <-. assert (ap_others fuel2 d [] = []) as -> by (destruct fuel2, d; reflexivity). cbn. rewrite app_nil_r. split; [reflexivity|lia]. }
  destruct fuel2 as [|fuel2]; [cbn in L2; lia|]. cbn [ap_others].
  replace (d && (zlen (b :: r) =? 0)) with false by (rewrite zlen_cons; pose proof (zlen_nonneg r); destruct d; cbn [andb]; lia).
  replace (zlen (b :: r) <? (if d then 1 else 0)) with false in E by (rewrite zlen_cons; pose proof (zlen_nonneg r); destruct d; lia).
  assert (skipn (Z.to_nat (if d then 1 else 0)) (b :: r) = if d then skipn 1 (b :: r) else b :: r) as ES by (destruct d; reflexivity). rewrite ES in E. clear ES.
  assert (length (if d then skipn 1 (b :: r) else b :: r) <= length (b :: r))%nat as LL by (destruct d; cbn; lia).
  destruct (if d then skipn 1 (b :: r) else b :: r) as [|hi [|lo q]].
  1, 2: injection E as <- <- <-; cbn; rewrite app_nil_r; split; [reflexivity|lia].
  cbn zeta in E |- *. set (m := Z.lor (Z.shiftl hi 8) lo) in *. destruct (zlen q <? m); [injection E as <- <- <-; cbn; rewrite app_nil_r; split; [reflexivity|lia]|].
  apply IH with (fuel2 := fuel2) in E; [|reflexivity| |]; [|rewrite skipn_length; cbn [length] in *; lia|rewrite skipn_length; cbn [length] in *; lia].
  destruct E as (E1 & E2). rewrite E1, E2. split; [|rewrite zlen_cons; lia]. unfold framed. cbn [map concat]. rewrite <- !app_assoc. reflexivity.
Qed.
Theorem C32_h265_aggregate_accessor : forall need packet out x o y, dep_ap Hevc need packet out x = Some (o, y) -> 2 < zlen packet ->
  exists us, ap_struct need packet = Some us /\ o = out ++ framed false us /\ 2 <= zlen us.
Proof.
  intros need packet out x o y E L. unfold dep_ap in E. destruct (ap_loop265 (length packet) need true (skipn 2 packet) out x 0) as [[o' y'] n] eqn:EL.
  destruct (n <? 2) eqn:Q; [discriminate|]. destruct (ap_struct need packet) as [us|] eqn:ES; [|discriminate]. injection E as <- <-. exists us. split; [reflexivity|].
  unfold ap_struct in ES. destruct packet as [|b0 [|b1 r]]; try (cbn in L; lia). change (skipn 2 (b0 :: b1 :: r)) with r in *. change (length (b0 :: b1 :: r)) with (S (S (length r))) in EL. assert (exists fl, fl = S (length r)) as (fl & EFL) by eauto. rewrite <- EFL in EL.
  destruct (need && (zlen r <? 2)) eqn:Q1; [discriminate|]. cbn [ap_loop265] in EL. destruct r as [|r0 r]; [destruct need; cbn in ES; discriminate|]. remember (r0 :: r) as rr eqn:ER.
  replace (zlen rr <? (if need then 2 else 0)) with false in EL by (destruct need; cbn [andb] in Q1; [lia|pose proof (zlen_nonneg rr); lia]).
  assert (skipn (Z.to_nat (if need then 2 else 0)) rr = if need then skipn 2 rr else rr) as EK by (destruct need; reflexivity). rewrite EK in EL. clear EK.
  assert (length (if need then skipn 2 rr else rr) <= length rr)%nat as LL by (destruct need; [rewrite skipn_length; lia|lia]).
  destruct (if need then skipn 2 rr else rr) as [|hi [|lo q]]; try discriminate. cbn zeta in EL, ES. set (m := Z.lor (Z.shiftl hi 8) lo) in *. destruct (zlen q <? m); [discriminate|].
  destruct (ap_others (length q) need (skipn (Z.to_nat m) q)) as [|u1 us1] eqn:EO; [discriminate|]. injection ES as <-.
  apply ap_same with (fuel2 := length q) in EL; [|reflexivity| |]; [|rewrite skipn_length; cbn [length] in *; lia|rewrite skipn_length; lia].
  rewrite EO in EL. destruct EL as (E1 & E2). split; [|lia || (rewrite !zlen_cons; pose proof (zlen_nonneg us1); lia)].
  rewrite E1. unfold framed. cbn [map concat]. rewrite <- !app_assoc. reflexivity.
Qed.
Print Assumptions C32_h265_aggregate_accessor.

(** Key frame detection on any packet of a foreign sender, without DONL: a single unit exactly when it is a random
    access picture, an aggregate exactly when one of its whole units is (what follows the last whole unit counts for
    nothing), a fragment exactly when it is the first of such a picture. *)
Definition ragged2 (l : list Z) : Prop :=
  match l with hi :: lo :: r => zlen r < hword hi lo \/ hword hi lo < 2 | _ => True end.
Lemma ap_key_spec c us : forall fuel tl, Forall (fun n => bytes_ok n /\ 2 <= zlen n < 65536) us -> ragged2 tl -> (length (apv us ++ tl) < fuel)%nat ->
  ap_key fuel c (apv us ++ tl) = existsb (fun n => random_access c (nty c n)) us.
Proof.
  induction us as [|n us IH]; intros fuel tl F R L; (destruct fuel as [|fuel]; [lia|]).
  - change (apv [] ++ tl) with tl. cbn [existsb ap_key]. destruct tl as [|hi [|lo r]]; try reflexivity. cbn zeta. cbn [ragged2] in R. unfold hword in R. replace (_ || _) with true by lia. reflexivity.
  - pose proof (Forall_inv F) as (B & N1 & N2). rewrite apv_cons in *. cbn [app] in *. rewrite <- app_assoc in *. destruct (cut_unit n (apv us ++ tl) ltac:(unfold U16; lia)) as (C1 & C2 & C3 & C4).
    cbn [ap_key existsb]. rewrite C4, C1, C3. replace (false || (zlen n <? 2)) with false by lia. rewrite hd2_app by lia.
    destruct n as [|b0 [|b1 r]]; try (cbn in N1; lia). change (hd2 (b0 :: b1 :: r)) with (hword b0 b1). rewrite (htype_nty c b0 b1 r (Forall_inv B) (Forall_inv (Forall_inv_tail B))), irap_spec. f_equal.
    apply IH; [exact (Forall_inv_tail F)|exact R|]. cbn [length app] in L. rewrite !app_length in *. cbn [length] in L. lia.
Qed.
Definition agg (us : list (list Z)) : list Z := concat (map (fun n => be16 (zlen n) ++ n) us).
Theorem C32_h265_h266_keyframe_packets : forall c b0 b1, byte_ok b0 -> byte_ok b1 ->
  let t := nty c [b0; b1] in
  (~ In t (reserved c) -> forall r, nal_detect_key c (b0 :: b1 :: r) = random_access c t) /\
  (t = match c with Hevc => 48 | Vvc => 28 end -> forall us tl, Forall (fun n => bytes_ok n /\ 2 <= zlen n < 65536) us -> ragged2 tl ->
     nal_detect_key c (b0 :: b1 :: agg us ++ tl) = existsb (fun n => random_access c (nty c n)) us) /\
  (t = match c with Hevc => 49 | Vvc => 29 end -> nal_detect_key c [b0; b1] = false /\
     forall f d, nal_detect_key c (b0 :: b1 :: f :: d) = bit f 128 && random_access c (match c with Hevc => Z.land f 63 | Vvc => Z.land f 31 end)) /\
  (c = Hevc -> t = 50 -> forall r, nal_detect_key c (b0 :: b1 :: r) = false).
Proof.
  intros c b0 b1 B0 B1. cbv zeta. pose proof (htype_nty c b0 b1 [] B0 B1) as T. rewrite <- T.
  assert (forall r, (zlen (b0 :: b1 :: r) <? 2) = false) as ZL by (intro r; rewrite !zlen_cons; pose proof (zlen_nonneg r); lia).
  unfold nal_detect_key. split; [|split; [|split]].
  - intros NI r. rewrite ZL. cbn [hd2]. destruct c; cbn [reserved In t_ap t_fu] in *.
    + replace (htype Hevc (hword b0 b1) =? 48) with false by lia. replace (htype Hevc (hword b0 b1) =? 49) with false by lia. rewrite irap_spec. unfold random_access. cbn [existsb]. lia.
    + replace (htype Vvc (hword b0 b1) =? 28) with false by lia. replace (htype Vvc (hword b0 b1) =? 29) with false by lia. apply irap_spec.
  - intros TT us tl F R. rewrite ZL. cbn [hd2]. rewrite TT. replace (_ =? t_ap c) with true by (destruct c; reflexivity). change (skipn 2 (b0 :: b1 :: agg us ++ tl)) with (agg us ++ tl). change (agg us) with (apv us). apply ap_key_spec; [exact F|exact R|cbn [length]; lia].
  - intros TT. split; [|intros f d]; rewrite ZL; cbn [hd2]; rewrite TT.
    + destruct c; reflexivity.
    + change (skipn 2 (b0 :: b1 :: f :: d)) with (f :: d). rewrite <- irap_spec. destruct c; reflexivity.
  - intros -> TT r. rewrite ZL. cbn [hd2]. rewrite TT. reflexivity.
Qed.
Print Assumptions C32_h265_h266_keyframe_packets.

(** * What does not hold *)
(** Units of two bytes, such as end of sequence, are sent but not received: the whole frame is lost. *)
Definition eos265 : list (nat * list Z) := [(1%nat, [2; 1; 9]); (1%nat, [72; 1])].
Definition eos266 : list (nat * list Z) := [(1%nat, [0; 1; 9]); (1%nat, [0; 169])].
Theorem C32_two_byte_unit_refuted : forall c, exists pkts,
  nal_packetize c (mkNp None None None None) 1200 (annex_b (match c with Hevc => eos265 | Vvc => eos266 end)) = Ok (mkNp None None None None, pkts) /\
  zlen pkts = 2 /\ snd (feed (nal_depacketize c) (mkNd false None) pkts [] None) = None.
Proof. intro c. destruct c; eexists; repeat split; vm_compute; reflexivity. Qed.
(** H.265 with DONL: a unit of MTU size makes a payload two bytes larger. *)
Theorem C32_h265_donl_over_mtu_refuted : exists n pkts st, zlen n = 100 /\ nal_packetize Hevc (mkNp None None None (Some 0)) 100 n = Ok (st, pkts) /\ map zlen pkts = [102].
Proof. exists (2 :: 1 :: repeat 9 98). eexists _, _. repeat split; vm_compute; reflexivity. Qed.
(** H.266: the zeros of a longer start code end up at the end of the unit before it. *)
Theorem C32_h266_long_start_code_refuted : exists pkts,
  nal_packetize Vvc (mkNp None None None None) 1200 (annex_b [(0%nat, [0; 1; 9]); (2%nat, [0; 1; 8])]) = Ok (mkNp None None None None, pkts) /\ pkts = [[0; 1; 9; 0]; [0; 1; 8]].
Proof. eexists. split; vm_compute; reflexivity. Qed.
(** A frame of two large slices: the end of the first slice already counts as the end of the frame, although the
    marker bit is not set. *)
Definition two_slices (c : nal_codec) : list (nat * list Z) :=
  match c with Hevc => [(1%nat, 38 :: 1 :: repeat 7 20); (1%nat, 38 :: 1 :: repeat 8 20)] | Vvc => [(1%nat, 0 :: 57 :: repeat 7 20); (1%nat, 0 :: 57 :: repeat 8 20)] end.
Theorem C32_tail_of_slice_refuted : forall c, exists pkts,
  nal_packetize c (mkNp None None None None) 15 (annex_b (two_slices c)) = Ok (mkNp None None None None, pkts) /\
  zlen pkts = 4 /\ map (nal_tail c false) (firstn 3 pkts) = [false; true; false].
Proof. intro c. destruct c; eexists; repeat split; vm_compute; reflexivity. Qed.
(** H.265 PACI packets lose the header of the unit they carry: an IDR slice arrives headless, and its first payload
    bytes are taken for the header. *)
Theorem C32_h265_paci_refuted : exists packet, packet = [100; 1; 38; 0] ++ [7; 7; 7; 7] /\
  snd (nal_depacketize Hevc (mkNd false None) packet [] None) = Some (start_code ++ [7; 7; 7; 7], Some false).
Proof. eexists. split; [reflexivity|vm_compute; reflexivity]. Qed.
(** Of two SPS before the slice only the second is sent. *)
Theorem C32_h265_second_sps_refuted : exists pkts fb,
  nal_packetize Hevc (mkNp None None None None) 1200 (annex_b [(1%nat, [66; 1; 5]); (1%nat, [66; 1; 6]); (1%nat, [68; 1; 7]); (1%nat, [38; 1; 9])]) = Ok (mkNp None None None None, pkts) /\
  feed (nal_depacketize Hevc) (mkNd false None) pkts [] None = (mkNd false fb, Some (framed false [[66; 1; 6]; [68; 1; 7]; [38; 1; 9]], Some true)).
Proof. eexists _, _. split; [vm_compute; reflexivity|]. vm_compute. reflexivity. Qed.
(** A receiver told about DONL by a sender that does not write it strips the first two bytes of every unit. *)
Theorem C32_donl_mismatch_refuted : forall c, exists n pkts fb,
  nal_packetize c (mkNp None None None None) 1200 n = Ok (mkNp None None None None, pkts) /\
  feed (nal_depacketize c) (mkNd true None) pkts [] None = (mkNd true fb, Some (start_code ++ [2; 1; 7], Some false)) /\ n = [2; 1; 9; 8; 7].
Proof. intro c. destruct c; exists [2; 1; 9; 8; 7]; eexists _, _; (split; [vm_compute; reflexivity|]); (split; [vm_compute; reflexivity|reflexivity]). Qed.

(** VPS, SPS, PPS, a fragmented IDR slice and a trailing slice at MTU 22 with DONL. *)
Definition frame265 : list (nat * list Z) := [(1%nat, [64; 1; 12]); (0%nat, [66; 1; 1; 7]); (1%nat, [68; 1; 193]); (2%nat, 38 :: 1 :: repeat 7 30); (0%nat, [2; 1; 0; 0; 2])].
Definition frame266 : list (nat * list Z) := [(1%nat, [0; 121; 12]); (0%nat, [0; 129; 193]); (1%nat, 0 :: 57 :: repeat 7 30); (0%nat, [0; 1; 0; 0; 2])].
Fixpoint no001 (n : list Z) : bool := match n with [] => true | x :: r => negb (match n with 0 :: 0 :: 1 :: _ => true | _ => false end) && no001 r end.
Lemma no001_ok n : no001 n = true -> forall a b, n <> a ++ [0; 0; 1] ++ b.
Proof.
  induction n as [|x n IH]; intros H a b E; [destruct a; discriminate|]. apply andb_true_iff in H. destruct H as (H1 & H2). destruct a as [|y a].
  - cbn [app] in E. injection E as -> ->. discriminate.
  - injection E as _ E. exact (IH H2 a b E).
Qed.
Lemma last_ok n : last n 1 <> 0 -> forall a : list Z, n <> a ++ [0].
Proof. intros H a E. rewrite E, last_last in H. lia. Qed.
Ltac nal_case := split; [repeat constructor; cbn; lia|]; split; [cbn; lia|]; split; [cbn; lia|]; split; [cbn; lia|]; split; [apply no001_ok; reflexivity|apply last_ok; cbn; lia].
Example frame265_ok : in_order Hevc (map snd frame265) /\ Forall (nalu Hevc) (map snd frame265) /\ each_fits Hevc (Some 65534) 22 (map snd frame265).
Proof.
  split; [|split].
  - apply order_three; try reflexivity; [cbn; lia|]. apply order_one; [cbn; lia|constructor].
  - repeat (apply Forall_cons; [nal_case|]). constructor.
  - intros n Hn T. cbn in Hn. destruct Hn as [<-|[<-|[<-|[<-|[<-|[]]]]]]; cbn in T |- *; lia.
Qed.
Example frame266_ok : in_order Vvc (map snd frame266) /\ Forall (nalu Vvc) (map snd frame266) /\ each_fits Vvc (Some 65534) 22 (map snd frame266).
Proof.
  split; [|split].
  - apply order_two; try reflexivity; [cbn; lia|]. apply order_one; [cbn; lia|constructor].
  - repeat (apply Forall_cons; [nal_case|]). constructor.
  - intros n Hn T. cbn in Hn. destruct Hn as [<-|[<-|[<-|[<-|[]]]]]; cbn in T |- *; lia.
Qed.
Definition shown (c : nal_codec) (f : list (nat * list Z)) (mtu : Z) :=
  match nal_packetize c (mkNp None None None (Some 65534)) mtu (annex_b f) with Ok (st, p) => Some (n_donl st, map zlen p, map (donl_of c) p) | _ => None end.
Example frame265_packets : shown Hevc frame265 22 = Some (Some 3, [22; 22; 16; 7], [Some 65534; Some 1; None; Some 2]).
Proof. vm_compute. reflexivity. Qed.
Example frame266_packets : shown Vvc frame266 22 = Some (Some 2, [14; 22; 16; 7], [Some 65534; Some 0; None; Some 1]).
Proof. vm_compute. reflexivity. Qed.

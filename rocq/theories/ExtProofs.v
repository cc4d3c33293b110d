From Verif Require Import Base BaseFacts MtimeModel ExtModel ExtSpec.

Ltac idxs := repeat match goal with
  | |- context [idx ?b ?k] => let x := fresh "x" in let E := fresh in let I := fresh "I" in
      destruct (idx_ok b k) as (x & E & I); [lia|]; rewrite E; clear E; cbn [bind]
  end.

(** * Parsing is total *)
Lemma parse_value_total E x b e : exists e', parse_value E x b e = Ok e'.
Proof.
  unfold parse_value. pose proof (zlen_nonneg b).
  destruct x; try (destruct (utf8 b)); try (eexists; reflexivity).
  all: repeat match goal with
    | |- context [if zlen ?c <? ?k then _ else _] => destruct (zlen c <? k) eqn:?; [eexists; reflexivity|]
    | |- context [if zlen ?c =? ?k then _ else _] => destruct (zlen c =? k) eqn:?; [eexists; reflexivity|]
    | |- context [idx ?b ?k] => let x := fresh "x" in let E := fresh in let I := fresh "I" in
      destruct (idx_ok b k) as (x & E & I); [lia|]; rewrite E; clear E; cbn [bind]
    end; eexists; reflexivity.
Qed.

Lemma parse_exts_total E m f : forall fuel buf e, bytes_ok buf -> (length buf < fuel)%nat ->
  exists e', parse_exts fuel E m f buf e = Ok e'.
Proof.
  induction fuel as [|fuel IH]; intros buf e B L; [lia|]. cbn [parse_exts].
  pose proof (zlen_nonneg buf). destruct (zlen buf =? 0) eqn:Z0; [eexists; reflexivity|].
  destruct (idx_ok buf 0 ltac:(lia)) as (b0 & E0 & I0). rewrite E0. cbn [bind].
  pose proof (idx_byte _ _ _ B E0) as B0.
  assert (forall n, 1 <= n <= zlen buf -> from buf n = Ok (skipn (Z.to_nat n) buf) /\
     bytes_ok (skipn (Z.to_nat n) buf) /\ (length (skipn (Z.to_nat n) buf) < fuel)%nat) as FR.
  { intros n Hn. split; [apply from_ok; lia|]. split; [apply bytes_ok_skipn; exact B|].
    rewrite skipn_length. unfold zlen in *. lia. }
  destruct (b0 =? 0).
  - destruct (FR 1 ltac:(lia)) as (-> & F2 & F3). cbn [bind]. apply IH; assumption.
  - assert (forall id len buf', bytes_ok buf' -> (length buf' < fuel)%nat -> 0 <= len ->
       exists e', (if zlen buf' <? len then Ok e else
            do eb <- upto buf' len;
            do e' <- match lookup m id with Some x => parse_value E x eb e | None => Ok e end;
            do buf' <- from buf' len; parse_exts fuel E m f buf' e') = Ok e') as V.
    { intros id len buf' B' L' Hl. destruct (zlen buf' <? len) eqn:Q; [eexists; reflexivity|].
      rewrite upto_ok by lia. cbn [bind].
      assert (exists e', match lookup m id with Some x => parse_value E x (firstn (Z.to_nat len) buf') e | None => Ok e end = Ok e') as (e' & ->).
      { destruct (lookup m id); [apply parse_value_total|eexists; reflexivity]. }
      cbn [bind]. rewrite from_ok by lia. cbn [bind]. apply IH; [apply bytes_ok_skipn; exact B'|].
      rewrite skipn_length. lia. }
    destruct f.
    + destruct (FR 1 ltac:(lia)) as (-> & F2 & F3). cbn [bind].
      destruct (Z.shiftr b0 4 =? 15); [eexists; reflexivity|]. apply V; auto.
      assert (0 <= Z.land b0 15) by (apply Z.land_nonneg; lia). lia.
    + destruct (zlen buf <? 2) eqn:Q; [eexists; reflexivity|].
      destruct (idx_ok buf 1 ltac:(lia)) as (b1 & E1 & I1). rewrite E1. cbn [bind].
      pose proof (idx_byte _ _ _ B E1) as B1.
      destruct (FR 2 ltac:(lia)) as (-> & F2 & F3). cbn [bind]. apply V; auto. unfold byte_ok in B1. lia.
Qed.

(** * Round trip of one value *)
Definition vad_real (l : Z) (v : bool) : bool := v || negb (l =? 0).
Definition carry (E : Z) (e : extvals) (x : ext) (acc : extvals) : extvals :=
  match x with
  | AbsoluteSendTime => match abs_send_time e with Some t => set_ast acc (arrives_ast E t) | None => acc end
  | AbsoluteCaptureTime => match abs_capture_time e with Some t => set_act acc t | None => acc end
  | AudioLevel => match audio_level e, voice_activity e with Some l, Some v => set_audio acc l (vad_real l v) | _, _ => acc end
  | TransmissionTimeOffset => match tx_time_offs e with Some t => set_txoffs acc t | None => acc end
  | VideoOrientation => match video_orientation e with Some t => set_orient acc t | None => acc end
  | TransportSequenceNumber => match transport_cc e with Some t => set_tcc acc t | None => acc end
  | PlayoutDelay => match play_delay_min e, play_delay_max e with Some a, Some b => set_delay acc (hundredths a) (hundredths b) | _, _ => acc end
  | VideoContentType => match video_content_type e with Some t => set_content acc t | None => acc end
  | VideoTiming => match video_timing e with Some t => set_timing acc t | None => acc end
  | RtpStreamId => match rid e with Some t => set_rid acc t | None => acc end
  | RepairedRtpStreamId => match rid_repair e with Some t => set_rrid acc t | None => acc end
  | RtpMid => match mid e with Some t => set_mid acc t | None => acc end
  | FrameMarking => match frame_mark e with Some t => set_fm acc t | None => acc end
  | ColorSpace => acc
  | EUser _ => match user e with Some t => set_user acc t | None => acc end
  end.

Lemma utf8_ascii s : Forall (fun c => alnum c = true \/ c = 95) s -> utf8 s = Some s.
Proof.
  induction 1 as [|c s H _ IH]; [reflexivity|]. cbn [utf8].
  assert (rng 0 127 c = true) as ->.
  { destruct H as [H| ->]; [|reflexivity]. unfold alnum, rng in *. lia. }
  rewrite IH. reflexivity.
Qed.
Lemma id_keep n s : id_ok n s -> id_from n s = s.
Proof.
  intros [H F]. unfold id_from. rewrite map_ext_in with (g := fun c => c).
  - rewrite map_id. apply firstn_all2. unfold zlen in H. lia.
  - intros c Hc. rewrite Forall_forall in F. destruct (F c Hc) as [A| ->]; [rewrite A; reflexivity|reflexivity].
Qed.
Lemma alnum_byte s : Forall (fun c => alnum c = true \/ c = 95) s -> bytes_ok s.
Proof.
  intro F. eapply Forall_impl; [|exact F]. intros c [H| ->]; unfold byte_ok; [|lia]. unfold alnum, rng in H. lia.
Qed.

Lemma fits_some cap bs o : fits_in cap bs = Ok o -> o = Some bs.
Proof. unfold fits_in. destruct (cap <? zlen bs); congruence. Qed.

Lemma audio_byte l (v : bool) : -127 <= l <= 0 ->
  let b := Z.lor (if v then 128 else 0) ((- (Z.land 127 l)) mod 256) in
  byte_ok b /\ - (Z.land 127 b) = l /\ (0 <? Z.land b 128) = vad_real l v.
Proof.
  intros H b. assert (In l (zseq (-127) 128)) as I by (apply zseq_in; lia).
  assert (forallb (fun l => forallb (fun v : bool => let b := Z.lor (if v then 128 else 0) ((- (Z.land 127 l)) mod 256) in
     byteb b && (Z.eqb (- (Z.land 127 b)) l) && Bool.eqb (0 <? Z.land b 128) (vad_real l v)) [true; false]) (zseq (-127) 128) = true) as A
    by (vm_compute; reflexivity).
  rewrite forallb_forall in A. specialize (A l I). rewrite forallb_forall in A.
  specialize (A v). assert (In v [true; false]) as IV by (destruct v; cbn; auto). specialize (A IV).
  cbv zeta in A. fold b in A. apply andb_prop in A as [A A3]. apply andb_prop in A as [A1 A2].
  apply eqb_prop in A3. unfold byte_ok, byteb in *. split; [lia|]. split; [lia|exact A3].
Qed.

Lemma rebase_hundredths t : delay_ok t -> numer (rebase t 100) = numer t * 100 / denom t.
Proof.
  intros (H1 & H2 & H3). unfold rebase. destruct (100 =? denom t) eqn:Q.
  - assert (denom t = 100) as -> by lia. rewrite Z.div_mul; lia.
  - cbn. apply Z.mod_small. split; [apply Z.div_pos; lia|unfold U64; lia].
Qed.

Lemma delay_bytes a b : 0 <= a < 4096 -> 0 <= b < 4096 ->
  let x0 := Z.shiftr a 4 mod 256 in
  let x1 := Z.lor (Z.shiftl a 4 mod 256) (Z.shiftr b 8 mod 256) in
  let x2 := b mod 256 in
  byte_ok x0 /\ byte_ok x1 /\ byte_ok x2 /\
  Z.lor (Z.shiftl x0 4) (Z.shiftr x1 4) = a /\ Z.lor (Z.shiftl (Z.land x1 15) 8) x2 = b.
Proof.
  intros Ha Hb. cbv zeta. rewrite !Z.shiftr_div_pow2, !Z.shiftl_mul_pow2 by lia.
  change (2 ^ 4) with 16. change (2 ^ 8) with 256.
  rewrite (lor_add (a * 16 mod 256) (b / 256 mod 256) 4); [|lia|change (2^4) with 16; dlia|change (2^4) with 16; dlia].
  change 15 with (2 ^ 4 - 1). rewrite land_mask by lia. change (2 ^ 4) with 16.
  rewrite (lor_add _ _ 4); [|lia|change (2^4) with 16; dlia|change (2^4) with 16; dlia].
  rewrite (lor_add _ _ 8); [|lia|change (2^8) with 256; dlia|change (2^8) with 256; dlia].
  unfold byte_ok. repeat split; dlia.
Qed.

Lemma be64_rd x : 0 <= x < U64 ->
  rd32 (x / 4294967296 / 16777216 mod 256) (x / 4294967296 / 65536 mod 256) (x / 4294967296 / 256 mod 256) (x / 4294967296 mod 256) * U32
  + rd32 (x / 16777216 mod 256) (x / 65536 mod 256) (x / 256 mod 256) (x mod 256) = x.
Proof.
  intro H. rewrite rd32_be32 by (unfold U64, U32 in *; dlia).
  assert (rd32 (x / 16777216 mod 256) (x / 65536 mod 256) (x / 256 mod 256) (x mod 256) = x mod U32) as ->.
  { unfold rd32, U32. dlia. }
  unfold U32 in *. dlia.
Qed.

Lemma ast_value t : 0 <= t -> t / 1000 < U64 / 262144 ->
  (numer (rebase (from_duration t) 262144) mod U32) mod 16777216 = sent_18 t.
Proof.
  intros H F. unfold from_duration, rebase, sent_18. cbn [denom numer].
  assert (262144 =? 1000000 = false) as -> by reflexivity. cbn [numer].
  unfold U64, U32 in *. change (18446744073709551616 / 262144) with 70368744177664 in F.
  assert (0 <= t / 1000) by (apply Z.div_pos; lia).
  rewrite (Z.mod_small (t / 1000)) by lia.
  set (u := t / 1000) in *. clearbody u.
  assert (0 <= u * 262144 / 1000000 < 18446744073709551616) by dlia.
  rewrite (Z.mod_small (u * 262144 / 1000000)) by lia.
  generalize dependent (u * 262144 / 1000000). intros. dlia.
Qed.

Lemma ast_back x : 0 <= x < 16777216 -> numer (rebase (mkT x 262144) 1000000) = x * 1000000 / 262144.
Proof.
  intro H. unfold rebase. cbn [denom numer]. change (1000000 =? 262144) with false. cbn [numer].
  apply Z.mod_small. unfold U64. dlia.
Qed.

Lemma rd24_be24' x : rd24 (x / 65536 mod 256) (x / 256 mod 256) (x mod 256) = x mod 16777216.
Proof. unfold rd24. dlia. Qed.

Lemma act_8 E acc a b c d e f g h :
  parse_value E AbsoluteCaptureTime [a; b; c; d; e; f; g; h] acc
  = Ok (set_act acc (rd32 a b c d * U32 + rd32 e f g h, None)).
Proof. reflexivity. Qed.
Lemma act_16 E acc a b c d e f g h a' b' c' d' e' f' g' h' :
  parse_value E AbsoluteCaptureTime [a; b; c; d; e; f; g; h; a'; b'; c'; d'; e'; f'; g'; h'] acc
  = Ok (set_act acc (rd32 a b c d * U32 + rd32 e f g h,
      let off := rd32 a' b' c' d' * U32 + rd32 e' f' g' h' in
      Some (if off <? 9223372036854775808 then off else off - U64))).
Proof. reflexivity. Qed.
Lemma wrap_signed off : -9223372036854775808 <= off < 9223372036854775808 ->
  (if off mod U64 <? 9223372036854775808 then off mod U64 else off mod U64 - U64) = off.
Proof. intro. unfold U64. destruct (off mod 18446744073709551616 <? 9223372036854775808) eqn:Z1; dlia. Qed.
Ltac injs E := match type of E with Some ?x = Some ?y => let H := fresh in assert (y = x) as H by congruence; clear E; subst y end.
Ltac pv := cbn [app]; repeat match goal with |- context [@zlen ?A ?l] => 
    let n := eval cbv [zlen length Z.of_nat Pos.of_succ_nat Pos.succ] in (@zlen A l) in change (@zlen A l) with n end;
  repeat match goal with 
  | |- context [?a <? ?b] => let r := eval cbv in (a <? b) in match r with false => change (a <? b) with r end
  | |- context [?a =? ?b] => let r := eval cbv in (a =? b) in match r with false => change (a =? b) with r end
  end; cbv iota; ridx.
Lemma roundtrip_value E x e cap acc w : ev_ok e -> write_ext x e cap = Ok w ->
  (forall bs, w = Some bs -> bytes_ok bs /\ 0 < zlen bs /\ parse_value E x bs acc = Ok (carry E e x acc)) /\
  (w = None -> 16 <= cap -> carry E e x acc = acc).
Proof.
  intros O W. destruct O as [ok_audio0 ok_orient0 ok_content0 ok_tx0 ok_ast0 ok_act0 ok_tcc0 ok_dmin0 ok_dmax0 ok_vt0 ok_rid0 ok_rrid0 ok_mid0 ok_fm0 ok_user0]. unfold write_ext in W. unfold carry.
  destruct x.
  - destruct (abs_send_time e) as [t|]; [|injection W as <-; split; [discriminate|reflexivity]].
    apply fits_some in W. subst. split; [|discriminate]. intros bs Eb. injs Eb.
    split; [apply be24_ok|]. split; [reflexivity|].
    unfold parse_value, be24.
    match goal with |- context [zlen ?l] => change (zlen l) with 3 end. change (3 <? 3) with false. cbv iota.
    ridx.
    rewrite rd24_be24'. destruct ok_ast0 as [A1 A2]. unfold arrives_ast. rewrite <- ast_value by assumption.
    rewrite ast_back by (apply Z.mod_pos_bound; lia).
    reflexivity.
  - destruct (abs_capture_time e) as [[ntp [off|]]|]; [| |injection W as <-; split; [discriminate|reflexivity]].
    + destruct (cap <? 16) eqn:Q; [injection W as <-; split; [discriminate|intros _ C; lia]|].
      apply fits_some in W. subst. split; [|discriminate]. intros bs Eb. injs Eb.
      split; [apply bytes_ok_app; split; apply be64_ok|]. split; [reflexivity|].
      destruct ok_act0 as [A1 A2]. cbn [fst snd opt_ok] in A1, A2.
      unfold be64, be32. cbn [app]. rewrite act_16. rewrite be64_rd by assumption. cbv zeta.
      rewrite (be64_rd (off mod U64)) by (apply Z.mod_pos_bound; reflexivity).
      rewrite wrap_signed by assumption.
      reflexivity.
    + destruct (cap <? 8) eqn:Q; [injection W as <-; split; [discriminate|intros _ C; lia]|].
      apply fits_some in W. subst. split; [|discriminate]. intros bs Eb. injs Eb.
      split; [apply be64_ok|]. split; [reflexivity|].
      destruct ok_act0 as [A1 A2]. cbn [fst snd opt_ok] in A1, A2.
      unfold be64, be32. cbn [app]. rewrite act_8.
      rewrite be64_rd by assumption. reflexivity.
  - destruct (audio_level e) as [l|]; [|injection W as <-; split; [discriminate|reflexivity]].
    destruct (voice_activity e) as [v|]; [|injection W as <-; split; [discriminate|reflexivity]].
    apply fits_some in W. subst. split; [|discriminate]. intros bs Eb. injs Eb.
    destruct (audio_byte l v ok_audio0) as (B1 & B2 & B3).
    split; [repeat constructor; apply B1|]. split; [reflexivity|].
    unfold parse_value. pv.
    rewrite B2, B3. reflexivity.
  - destruct (tx_time_offs e) as [t|]; [|injection W as <-; split; [discriminate|reflexivity]].
    apply fits_some in W. subst. split; [|discriminate]. intros bs Eb. injs Eb.
    split; [apply be32_ok|]. split; [reflexivity|]. unfold parse_value, be32. pv. rewrite rd32_be32 by assumption. reflexivity.
  - destruct (video_orientation e) as [t|]; [|injection W as <-; split; [discriminate|reflexivity]].
    apply fits_some in W. subst. split; [|discriminate]. intros bs Eb. injs Eb.
    cbn in ok_orient0. split; [repeat constructor; lia|]. split; [reflexivity|]. unfold parse_value. pv. change 3 with (2 ^ 2 - 1). rewrite land_mask by lia. rewrite Z.mod_small by lia. reflexivity.
  - destruct (transport_cc e) as [t|]; [|injection W as <-; split; [discriminate|reflexivity]].
    apply fits_some in W. subst. split; [|discriminate]. intros bs Eb. injs Eb.
    split; [apply be16_ok|]. split; [reflexivity|]. unfold parse_value, be16. pv. rewrite rd16_be16 by assumption. reflexivity.
  - destruct (play_delay_min e) as [a|]; [|injection W as <-; split; [discriminate|reflexivity]].
    destruct (play_delay_max e) as [b|]; [|injection W as <-; split; [discriminate|reflexivity]].
    apply fits_some in W. subst. split; [|discriminate]. intros bs Eb. injs Eb.
    cbn [opt_ok] in *. rewrite !rebase_hundredths by assumption.
    change 4095 with (2 ^ 12 - 1). rewrite !land_mask by lia.
    assert (forall t, delay_ok t -> (numer t * 100 / denom t) mod 2 ^ 12 = numer t * 100 / denom t /\ 0 <= numer t * 100 / denom t < 4096) as D.
    { intros t (X1 & X2 & X3). split; [apply Z.mod_small|]; (split; [apply Z.div_pos; lia|exact X3]). }
    destruct (D a ok_dmin0) as [-> Da]. destruct (D b ok_dmax0) as [-> Db].
    destruct (delay_bytes _ _ Da Db) as (X1 & X2 & X3 & X4 & X5).
    split; [repeat constructor; first [apply X1|apply X2|apply X3]|]. split; [reflexivity|].
    unfold parse_value. pv.
    rewrite X4, X5. reflexivity.
  - destruct (video_content_type e) as [t|]; [|injection W as <-; split; [discriminate|reflexivity]].
    apply fits_some in W. subst. split; [|discriminate]. intros bs Eb. injs Eb.
    split; [repeat constructor; apply ok_content0|]. split; reflexivity.
  - destruct (video_timing e) as [[f1 f2 f3 f4 f5]|]; [|injection W as <-; split; [discriminate|reflexivity]].
    apply fits_some in W. subst. split; [|discriminate]. intros bs Eb. injs Eb.
    destruct ok_vt0 as (V1 & V2 & V3 & V4 & V5). cbn [vflags enc_start enc_finish pack_complete left_pacer] in *.
    split.
    { apply bytes_ok_app; split; [repeat constructor; apply V1|].
      repeat (apply bytes_ok_app; split; [apply be16_ok|]). repeat constructor; unfold byte_ok; lia. }
    split; [reflexivity|]. unfold parse_value, be16. pv. rewrite !rd16_be16 by assumption. reflexivity.
  - destruct (rid e) as [t|]; [|injection W as <-; split; [discriminate|reflexivity]].
    apply fits_some in W. subst. split; [|discriminate]. intros bs Eb. injs Eb.
    destruct ok_rid0 as [I1 I2]. split; [apply alnum_byte; exact I2|]. split; [lia|].
    unfold parse_value. rewrite utf8_ascii by assumption. rewrite id_keep by (split; assumption). reflexivity.
  - destruct (rid_repair e) as [t|]; [|injection W as <-; split; [discriminate|reflexivity]].
    apply fits_some in W. subst. split; [|discriminate]. intros bs Eb. injs Eb.
    destruct ok_rrid0 as [I1 I2]. split; [apply alnum_byte; exact I2|]. split; [lia|].
    unfold parse_value. rewrite utf8_ascii by assumption. rewrite id_keep by (split; assumption). reflexivity.
  - destruct (mid e) as [t|]; [|injection W as <-; split; [discriminate|reflexivity]].
    apply fits_some in W. subst. split; [|discriminate]. intros bs Eb. injs Eb.
    destruct ok_mid0 as [I1 I2]. split; [apply alnum_byte; exact I2|]. split; [lia|].
    unfold parse_value. rewrite utf8_ascii by assumption. rewrite id_keep by (split; assumption). reflexivity.
  - destruct (frame_mark e) as [t|]; [|injection W as <-; split; [discriminate|reflexivity]].
    apply fits_some in W. subst. split; [|discriminate]. intros bs Eb. injs Eb.
    split; [apply be32_ok|]. split; [reflexivity|]. unfold parse_value, be32. pv. rewrite rd32_be32 by assumption. reflexivity.
  - injection W as <-. split; [discriminate|reflexivity].
  - destruct (user e) as [t|]; [|injection W as <-; split; [discriminate|reflexivity]].
    destruct ok_user0 as [U1 U2]. destruct (zlen t =? 0) eqn:Q; [exfalso; lia|].
    apply fits_some in W. subst. split; [|discriminate]. intros bs Eb. injs Eb.
    split; [exact U2|]. split; [lia|]. reflexivity.
Qed.

(** C18 (SRTP) and C19 (SRTCP). *)
From Verif Require Import Base BaseFacts HeaderModel SrtpModel SrtpSpec SrtpProofs SrtpProofs2 SrtpProofs3 SrtpProofs4 RtcpModel.

(** ** C18 *)
(** protect_rtp makes exactly the packet of RFC 3711 / RFC 7714. *)
Theorem C18_protect_conforms : forall P c hdr payload h index,
  prims_ok P -> derived_ok (c_rtp c) ->
  12 <= zlen hdr -> header_len h = zlen hdr -> 0 <= ssrc h < U32 -> 0 <= index < 2 ^ 48 -> sequence_number h = index mod 65536 ->
  protect_rtp P c (hdr ++ payload) h index = Ok (srtp_packet P (c_rtp c) hdr payload (ssrc h) index).
Proof. intros. apply protect_conforms; assumption. Qed.

(** unprotect_rtp never panics and accepts exactly those packets, whatever is left in the reused
    scratch buffer: no other byte string gets through, and each gives back its payload. *)
Theorem C18_unprotect_exact : forall P c buf h index,
  prims_ok P -> derived_ok (c_rtp c) -> bytes_ok buf ->
  0 <= header_len h -> 0 <= ssrc h < U32 -> 0 <= index < 2 ^ 48 -> sequence_number h = index mod 65536 ->
  exists r scratch, unprotect_rtp P c buf h index = Ok (r, scratch) /\
    forall p, r = Some p <-> bytes_ok p /\ exists hdr, zlen hdr = header_len h /\ buf = srtp_packet P (c_rtp c) hdr p (ssrc h) index.
Proof. intros. apply unprotect_rtp_run; assumption. Qed.

Theorem C18_round_trip : forall P tx rx hdr payload h index,
  prims_ok P -> derived_ok (c_rtp tx) -> c_rtp rx = c_rtp tx -> bytes_ok hdr -> bytes_ok payload ->
  12 <= zlen hdr -> header_len h = zlen hdr -> 0 <= ssrc h < U32 -> 0 <= index < 2 ^ 48 -> sequence_number h = index mod 65536 ->
  exists buf scratch, protect_rtp P tx (hdr ++ payload) h index = Ok buf /\
    zlen buf = zlen hdr + zlen payload + tag_len (c_rtp tx) /\ firstn (length hdr) buf = hdr /\
    unprotect_rtp P rx buf h index = Ok (Some payload, scratch).
Proof.
  intros P tx rx hdr payload h index HP HD HR OH OP HL HH HS HI HQ.
  assert (bytes_ok (srtp_packet P (c_rtp tx) hdr payload (ssrc h) index)) as OB.
  { destruct (c_rtp tx) as [auth salt key|salt key]; cbn [srtp_packet]; rewrite !bytes_ok_app.
    - spl; [exact OH|apply ctr_ok; assumption|]. destruct HP as (_ & HM & _). apply bytes_ok_firstn, HM.
    - split; [exact OH|]. destruct HP as (_ & _ & HSeal & _). apply HSeal. }
  destruct (unprotect_rtp_run P rx (srtp_packet P (c_rtp tx) hdr payload (ssrc h) index) h index) as (r & sc & E & X); try assumption; [congruence|lia|].
  exists (srtp_packet P (c_rtp tx) hdr payload (ssrc h) index), sc. spl.
  - apply protect_conforms; assumption.
  - destruct (c_rtp tx) as [auth salt key|salt key]; cbn [srtp_packet tag_len]; rewrite !zlen_app.
    + rewrite tag_zlen, ctr_len by exact HP. lia.
    + destruct HP as (_ & _ & HSeal & _). destruct (HSeal key (ben 12 (rfc7714_rtp_iv (rdn salt) (ssrc h) index)) hdr payload) as [-> _]. lia.
  - destruct (c_rtp tx) as [auth salt key|salt key]; cbn [srtp_packet]; rewrite <- ?app_assoc, firstn_app, firstn_all, Nat.sub_diag, firstn_O; apply app_nil_r.
  - rewrite E. f_equal. f_equal. apply X. split; [exact OP|]. exists hdr. split; [lia|]. rewrite HR. reflexivity.
Qed.

(** Two different packets of one context never give the same input to the block cipher. *)
Theorem C18_iv_unique : forall d ssrc1 index1 ssrc2 index2 b, derived_ok d ->
  0 <= ssrc1 < U32 -> 0 <= ssrc2 < U32 -> 0 <= index1 < 2 ^ 48 -> 0 <= index2 < 2 ^ 48 ->
  nonces d ssrc1 index1 b -> nonces d ssrc2 index2 b -> ssrc1 = ssrc2 /\ index1 = index2.
Proof. intros. eapply nonces_disjoint; eassumption. Qed.

(** The bound 2^48 is needed: above it the code's IVs collide. *)
Theorem C18_iv_beyond_48_bits_refuted :
  (forall salt, cm_iv salt 1 0 = cm_iv salt 0 (2 ^ 48)) /\ (forall salt, gcm_iv salt 5 (roc_of 7) 7 = gcm_iv salt 5 (roc_of (2 ^ 48 + 7)) 7).
Proof. split; intro salt; reflexivity. Qed.

(** The keys: those of RFC 3711 4.3, from the part of the exported material RFC 5764 gives to that
    side; the two sides of one DTLS session agree. *)
Lemma skipn_skipn {A} x y (l : list A) : skipn x (skipn y l) = skipn (x + y) l.
Proof. revert l. induction y as [|y IH]; intro l; [rewrite Nat.add_0_r; reflexivity|]. destruct l; [rewrite !skipn_nil; reflexivity|]. rewrite Nat.add_succ_r. cbn [skipn]. apply IH. Qed.
Lemma srtp_key_split ML SL mat left : (Z.of_nat ML * 2 + Z.of_nat SL * 2 = zlen mat) ->
  srtp_key (Z.of_nat ML) (Z.of_nat SL) mat left = Ok (if left then fst (rfc5764_split ML SL mat) else snd (rfc5764_split ML SL mat)).
Proof.
  intro L. unfold srtp_key. replace (zlen mat =? Z.of_nat ML * 2 + Z.of_nat SL * 2) with true by lia. cbn [negb].
  unfold rfc5764_split. destruct left; cbn [fst snd].
  - rewrite !slice_ok by lia. cbn [bind]. f_equal. f_equal; [replace (Z.to_nat (0 + Z.of_nat ML - 0)) with ML by lia; reflexivity|].
    replace (Z.to_nat (Z.of_nat ML + Z.of_nat ML + 0 + Z.of_nat SL - (Z.of_nat ML + Z.of_nat ML + 0))) with SL by lia.
    replace (Z.to_nat (Z.of_nat ML + Z.of_nat ML + 0)) with (ML + ML)%nat by lia. rewrite skipn_skipn. reflexivity.
  - rewrite !slice_ok by lia. cbn [bind]. f_equal.
    replace (Z.to_nat (Z.of_nat ML + Z.of_nat ML - Z.of_nat ML)) with ML by lia. rewrite Nat2Z.id. f_equal.
    replace (Z.to_nat (Z.of_nat ML + Z.of_nat ML + Z.of_nat SL + Z.of_nat SL - (Z.of_nat ML + Z.of_nat ML + Z.of_nat SL))) with SL by lia.
    replace (Z.to_nat (Z.of_nat ML + Z.of_nat ML + Z.of_nat SL)) with (SL + (ML + ML))%nat by lia. rewrite !skipn_skipn.
    rewrite firstn_all2; [f_equal; lia|]. rewrite skipn_length. unfold zlen in L. lia.
Qed.
Theorem C18_session_keys : forall P p mat, prims_ok P -> bytes_ok mat -> zlen mat = 2 * Z.of_nat (master_len p) + 2 * Z.of_nat (salt_len p) ->
  let '((ck, cs), (sk, ss)) := rfc5764_split (master_len p) (salt_len p) mat in
  let client := session_keys P p ck cs in let server := session_keys P p sk ss in
  keying P p mat true = Ok (mkCtx (fst server) (snd server) 0 [], mkCtx (fst client) (snd client) 0 []) /\
  keying P p mat false = Ok (mkCtx (fst client) (snd client) 0 [], mkCtx (fst server) (snd server) 0 []).
Proof.
  intros P p mat HP OM L. cbn [rfc5764_split]. cbn zeta.
  set (ck := firstn (master_len p) mat). set (r1 := skipn (master_len p) mat). set (sk := firstn (master_len p) r1). set (r2 := skipn (master_len p) r1).
  set (cs := firstn (salt_len p) r2). set (ss := skipn (salt_len p) r2).
  assert (bytes_ok cs /\ bytes_ok ss) as [OC OS] by (unfold cs, ss, r2, r1; split; [apply bytes_ok_firstn|]; repeat apply bytes_ok_skipn; exact OM).
  assert (zlen cs = Z.of_nat (salt_len p) /\ zlen ss = Z.of_nat (salt_len p)) as [LC LS].
  { unfold cs, ss, r2, r1. rewrite zlen_firstn, !zlen_skipn. lia. }
  assert (forall left, new_ctx P p mat left = Ok (let k := session_keys P p (if left then ck else sk) (if left then cs else ss) in mkCtx (fst k) (snd k) 0 [])) as N.
  { intro left. assert (srtp_key (Z.of_nat (master_len p)) (Z.of_nat (salt_len p)) mat left = Ok (if left then (ck, cs) else (sk, ss))) as SK.
    { rewrite srtp_key_split by lia. reflexivity. }
    assert (forall label n, byte_ok label -> Z.of_nat n <= 1048576 -> forall m, derive P m (if left then cs else ss) label n = rfc_kdf P m (if left then cs else ss) label n) as KD.
    { intros label n LB LN m. apply derive_kdf; try assumption; destruct left; try assumption; destruct p; cbn [salt_len] in *; lia. }
    assert (forall l, 0 <= l < 256 -> byte_ok l) as BO by (intros; exact H).
    unfold new_ctx. destruct p; cbn [master_len salt_len] in *;
      match type of SK with srtp_key ?a ?b _ _ = _ => let a' := eval compute in a in let b' := eval compute in b in change (srtp_key a' b' mat left = Ok (if left then (ck, cs) else (sk, ss))) in SK end;
      rewrite SK; cbn [bind]; destruct left; cbn [derive_cm derive_gcm session_keys fst snd]; cbn zeta;
      rewrite !KD by (try (apply BO; lia); lia); reflexivity. }
  unfold keying. rewrite !N. split; reflexivity.
Qed.
(** The session salts have the sizes the other theorems assume. *)
Theorem C18_session_keys_ok : forall P p mat active rx tx, prims_ok P -> bytes_ok mat ->
  zlen mat = 2 * Z.of_nat (master_len p) + 2 * Z.of_nat (salt_len p) -> keying P p mat active = Ok (rx, tx) ->
  derived_ok (c_rtp rx) /\ derived_ok (c_rtcp rx) /\ derived_ok (c_rtp tx) /\ derived_ok (c_rtcp tx).
Proof.
  intros P p mat active rx tx HP OM L K. pose proof (C18_session_keys P p mat HP OM L) as X.
  destruct (rfc5764_split (master_len p) (salt_len p) mat) as [[ck cs] [sk ss]]. cbn zeta in X. destruct X as [X1 X2].
  assert (forall m s label n, zlen (rfc_kdf P m s label n) = Z.of_nat n /\ bytes_ok (rfc_kdf P m s label n)) as KL.
  { intros m s label n. unfold rfc_kdf. cbn zeta. split; [rewrite ctr_len by exact HP; apply zlen_repeat|].
    apply ctr_ok; [exact HP|]. apply Forall_forall. intros x Hx. apply repeat_spec in Hx. subst. red. lia. }
  assert (forall m s, derived_ok (fst (session_keys P p m s)) /\ derived_ok (snd (session_keys P p m s))) as D.
  { intros m s. destruct p; cbn [session_keys fst snd derived_ok]; repeat split; apply KL. }
  destruct active; rewrite K in *; [injection X1 as -> ->|injection X2 as -> ->]; cbn [c_rtp c_rtcp]; spl; apply D.
Qed.
(** Different labels never give the same input to the derivation cipher. *)
Theorem C18_labels_separate : forall salt label1 label2 round1 round2, bytes_ok salt -> zlen salt <= 14 ->
  0 <= label1 < 256 -> 0 <= label2 < 256 -> 0 <= round1 < 65536 -> 0 <= round2 < 65536 ->
  derive_input salt label1 round1 = derive_input salt label2 round2 -> label1 = label2 /\ round1 = round2.
Proof.
  intros salt l1 l2 r1 r2 B L L1 L2 R1 R2 E. rewrite !derive_input_block in E by assumption.
  apply ctr_block_inj in E as [E ->]; try assumption; try (apply kdf_range; assumption). split; [|reflexivity].
  rewrite !(Z.lxor_comm _ (salt112 salt)) in E. apply lxor_cancel_l in E. change (2 ^ 48) with 281474976710656 in E. lia.
Qed.

(** One side sends, the other receives: the payload arrives. *)
Theorem C18_end_to_end : forall P p mat hdr payload h index, prims_ok P -> bytes_ok mat ->
  zlen mat = 2 * Z.of_nat (master_len p) + 2 * Z.of_nat (salt_len p) -> bytes_ok hdr -> bytes_ok payload ->
  12 <= zlen hdr -> header_len h = zlen hdr -> 0 <= ssrc h < U32 -> 0 <= index < 2 ^ 48 -> sequence_number h = index mod 65536 ->
  forall active, exists rxA txA rxB txB buf scratch,
    keying P p mat active = Ok (rxA, txA) /\ keying P p mat (negb active) = Ok (rxB, txB) /\
    protect_rtp P txA (hdr ++ payload) h index = Ok buf /\ unprotect_rtp P rxB buf h index = Ok (Some payload, scratch).
Proof.
  intros P p mat hdr payload h index HP OM L OH OP HL HH HS HI HQ active. pose proof (C18_session_keys P p mat HP OM L) as X.
  destruct (rfc5764_split (master_len p) (salt_len p) mat) as [[ck cs] [sk ss]]. cbn zeta in X. destruct X as [X1 X2].
  destruct active; cbn [negb].
  - pose proof (C18_session_keys_ok P p mat true _ _ HP OM L X1) as (_ & _ & D & _).
    destruct (C18_round_trip P (mkCtx (fst (session_keys P p ck cs)) (snd (session_keys P p ck cs)) 0 []) (mkCtx (fst (session_keys P p ck cs)) (snd (session_keys P p ck cs)) 0 []) hdr payload h index) as (buf & sc & E1 & _ & _ & E2); try assumption; try reflexivity.
    do 6 eexists. spl; [exact X1|exact X2|exact E1|exact E2].
  - pose proof (C18_session_keys_ok P p mat false _ _ HP OM L X2) as (_ & _ & D & _).
    destruct (C18_round_trip P (mkCtx (fst (session_keys P p sk ss)) (snd (session_keys P p sk ss)) 0 []) (mkCtx (fst (session_keys P p sk ss)) (snd (session_keys P p sk ss)) 0 []) hdr payload h index) as (buf & sc & E1 & _ & _ & E2); try assumption; try reflexivity.
    do 6 eexists. spl; [exact X2|exact X1|exact E1|exact E2].
Qed.

(** ** C19 *)
(** A history of outgoing compound packets. *)
Fixpoint send_all (P : prims) (c : ctx) (bufs : list (list Z)) : res (list (list Z)) :=
  match bufs with
  | [] => Ok []
  | b :: r => do x <- protect_rtcp P c b; let '(o, c') := x in do os <- send_all P c' r; Ok (o :: os)
  end.
(** The packet with index [i] for the compound packet [b]. *)
Definition srtcp_of (P : prims) (d : derived) (b : list Z) (i : Z) : list Z :=
  srtcp_packet P d (firstn 8 b) (skipn 8 b) (rdn (firstn 4 (skipn 4 b))) i.

Lemma split8 (b : list Z) : 8 <= zlen b -> exists pre sx rest, b = pre ++ sx ++ rest /\ zlen pre = 4 /\ zlen sx = 4 /\
  pre ++ sx = firstn 8 b /\ rest = skipn 8 b /\ sx = firstn 4 (skipn 4 b).
Proof.
  intro H. destruct (split3 b 4 4) as (pre & sx & rest & -> & L1 & L2 & _); try lia. exists pre, sx, rest.
  assert (length pre = 4%nat /\ length sx = 4%nat) as [N1 N2] by (unfold zlen in *; lia).
  destruct pre as [|a [|b0 [|c [|d [|]]]]]; cbn in N1; try lia. destruct sx as [|e [|f [|g [|k [|]]]]]; cbn in N2; try lia. spl; reflexivity || assumption.
Qed.
Theorem C19_fresh_index : forall P c bufs, prims_ok P -> derived_ok (c_rtcp c) -> c_index c = 0 ->
  Forall (fun b => 8 <= zlen b /\ bytes_ok b) bufs -> zlen bufs <= 2 ^ 31 ->
  send_all P c bufs = Ok (map (fun '(b, i) => srtcp_of P (c_rtcp c) b i) (combine bufs (zseq 0 (length bufs)))).
Proof.
  intros P c bufs HP HD HI F HL.
  assert (forall bufs c i, Forall (fun b => 8 <= zlen b /\ bytes_ok b) bufs -> derived_ok (c_rtcp c) -> 0 <= i -> (zlen bufs = 0 \/ c_index c = i) -> i + zlen bufs <= 2 ^ 31 ->
    send_all P c bufs = Ok (map (fun '(b, i) => srtcp_of P (c_rtcp c) b i) (combine bufs (zseq i (length bufs))))) as G.
  { clear - HP. induction bufs as [|b bufs IH]; intros c i F HD I0 HI HL; [reflexivity|]. inversion F as [|? ? [B8 OB] F']; subst. rewrite zlen_cons in *. pose proof (zlen_nonneg bufs).
    assert (c_index c = i) as CI by (destruct HI; [lia|assumption]).
    cbn [send_all length zseq combine map]. destruct (split8 b B8) as (pre & sx & rest & E & L1 & L2 & E1 & E2 & E3).
    assert (protect_rtcp P c b = Ok (srtcp_of P (c_rtcp c) b i, mkCtx (c_rtp c) (c_rtcp c) ((i + 1) mod 2 ^ 31) (c_scratch c))) as ->.
    { rewrite E at 1. rewrite protect_rtcp_conforms; try assumption; [|lia|rewrite E3; apply bytes_ok_firstn, bytes_ok_skipn; exact OB]. unfold srtcp_of. rewrite <- E1, <- E2, <- E3, CI. reflexivity. }
    cbn [bind]. rewrite (IH _ (i + 1)); [reflexivity|exact F'|exact HD|lia| |lia].
    cbn [c_index]. destruct (Z.eq_dec (zlen bufs) 0); [left; assumption|right]. apply Z.mod_small. lia. }
  apply G; try assumption; lia || (right; exact HI).
Qed.
(** Different indices (or senders) never give the same cipher input. *)
Theorem C19_iv_unique : forall d ssrc1 index1 ssrc2 index2 b, derived_ok d ->
  0 <= ssrc1 < U32 -> 0 <= ssrc2 < U32 -> 0 <= index1 < 2 ^ 31 -> 0 <= index2 < 2 ^ 31 ->
  nonces d ssrc1 index1 b -> nonces d ssrc2 index2 b -> ssrc1 = ssrc2 /\ index1 = index2.
Proof. intros. assert (2 ^ 31 < 2 ^ 48) by reflexivity. eapply nonces_disjoint; try eassumption; lia. Qed.
(** After 2^31 packets the index starts again at 0. *)
Theorem C19_index_wraps_refuted : forall P c pre sx rest, prims_ok P -> derived_ok (c_rtcp c) -> c_index c = 2 ^ 31 - 1 ->
  zlen pre = 4 -> zlen sx = 4 -> bytes_ok sx -> exists out c', protect_rtcp P c (pre ++ sx ++ rest) = Ok (out, c') /\ c_index c' = 0.
Proof.
  intros P c pre sx rest HP HD HI L1 L2 OS. do 2 eexists. split; [apply protect_rtcp_conforms; try assumption; rewrite HI; lia|]. cbn [c_index]. rewrite HI. reflexivity.
Qed.

(** unprotect_rtcp never panics and accepts exactly the authentic packets: encrypted ones with the
    index they carry, or authenticated-only ones (E bit clear). *)
Theorem C19_unprotect_exact : forall P c buf, prims_ok P -> derived_ok (c_rtcp c) -> bytes_ok buf ->
  exists r, unprotect_rtcp P c buf = Ok r /\
    forall p, r = Some p <->
      bytes_ok p /\ exists pre sx rest i, zlen pre = 4 /\ zlen sx = 4 /\ p = pre ++ sx ++ rest /\ 0 <= i < 2 ^ 31 /\
        (buf = srtcp_packet P (c_rtcp c) (pre ++ sx) rest (rdn sx) i \/ buf = srtcp_plain P (c_rtcp c) (pre ++ sx) rest (rdn sx) i).
Proof. intros. apply unprotect_rtcp_run; assumption. Qed.

Theorem C19_round_trip : forall P tx rx buf, prims_ok P -> derived_ok (c_rtcp tx) -> c_rtcp rx = c_rtcp tx ->
  8 <= zlen buf -> bytes_ok buf -> 0 <= c_index tx < 2 ^ 31 ->
  exists out tx', protect_rtcp P tx buf = Ok (out, tx') /\ zlen out = zlen buf + 4 + tag_len (c_rtcp tx) /\
    bytes_ok out /\ unprotect_rtcp P rx out = Ok (Some buf).
Proof.
  intros P tx rx buf HP HD HR B8 OB HI. destruct (split8 buf B8) as (pre & sx & rest & E & L1 & L2 & _ & _ & _).
  assert (bytes_ok pre /\ bytes_ok sx /\ bytes_ok rest) as (O1 & O2 & O3) by (rewrite E, !bytes_ok_app in OB; tauto).
  exists (srtcp_packet P (c_rtcp tx) (pre ++ sx) rest (rdn sx) (c_index tx)). eexists. rewrite E at 1. split; [apply protect_rtcp_conforms; assumption|].
  assert (bytes_ok (srtcp_packet P (c_rtcp tx) (pre ++ sx) rest (rdn sx) (c_index tx))) as OO.
  { destruct (c_rtcp tx) as [auth salt key|salt key]; cbn [srtcp_packet]; cbn zeta; rewrite !bytes_ok_app; spl; try assumption; try apply ben_ok.
    - apply ctr_ok; assumption. - destruct HP as (_ & HM & _). apply bytes_ok_firstn, HM. - destruct HP as (_ & _ & HSeal & _). apply HSeal. }
  spl.
  - rewrite E. destruct (c_rtcp tx) as [auth salt key|salt key]; cbn [srtcp_packet tag_len]; cbn zeta; rewrite !zlen_app, ben_zlen.
    + rewrite tag_zlen, ctr_len by exact HP. lia.
    + match goal with |- context [zlen (seal P key ?i ?a ?q)] => destruct HP as (_ & _ & HSeal & _); destruct (HSeal key i a q) as [-> _] end. lia.
  - exact OO.
  - destruct (unprotect_rtcp_run P rx _ HP ltac:(rewrite HR; exact HD) OO) as (r & ER & X). rewrite ER. f_equal. apply X.
    split; [exact OB|]. exists pre, sx, rest, (c_index tx). spl; try assumption; try lia. left. rewrite HR. reflexivity.
Qed.

(** ** Sending feedback: the datagram is smaller than the target MTU *)
Theorem C19_feedback_fits_partial : forall P c mtu q bs out rest, prims_ok P -> derived_ok (c_rtcp c) -> 0 <= c_index c < 2 ^ 31 ->
  576 <= mtu <= 1500 -> (mtu mod 4 <> 0 \/ tag_len (c_rtcp c) = 10) ->
  write_packet q ((mtu - 20) / 4 * 4) = Ok (bs, out, rest) -> 8 <= zlen bs <= (mtu - 20) / 4 * 4 -> bytes_ok bs -> q <> [] ->
  exists d c', poll_feedback P c mtu q = Ok (Some d, rest, c') /\ zlen d < mtu.
Proof.
  intros P c mtu q bs out rest HP HD HI M ALT W L OB NE.
  destruct (C19_round_trip P c c bs HP HD eq_refl) as (o & c' & E & LO & _ & _); try assumption; [lia|].
  unfold poll_feedback. destruct q as [|x q]; [congruence|]. replace (mtu <? 20) with false by lia. cbn zeta. rewrite W. cbn [bind].
  replace (zlen bs =? 0) with false by lia. rewrite E. cbn [bind].
  assert (zlen o < mtu) as LT by (rewrite LO; destruct ALT as [A|A]; [|rewrite A; dlia]; assert (tag_len (c_rtcp c) <= 16) by (destruct (c_rtcp c); cbn; lia); dlia).
  replace (zlen o <? mtu) with true by lia. eauto.
Qed.

Lemma toy_ok : prims_ok toy.
Proof.
  unfold prims_ok, toy. cbn [aes hmac seal unseal].
  assert (forall k n, bytes_ok (repeat (k mod 256) n)) as BR by (intros k n; apply Forall_forall; intros x X; apply repeat_spec in X; subst; red; dlia).
  assert (forall l, bytes_ok (map (fun x => x mod 256) l)) as BM by (intro l; apply Forall_forall; intros x X; apply in_map_iff in X as (y & <- & _); red; dlia).
  spl.
  - intros k b. split; [reflexivity|]. apply Forall_forall. intros x X. apply in_map_iff in X as (y & <- & _). red. dlia.
  - intros k m. split; [apply zlen_repeat|apply BR].
  - intros k iv a p. split; [rewrite zlen_app, zlen_map; unfold toy_tag; rewrite zlen_repeat; reflexivity|]. apply bytes_ok_app. split; [apply BM|apply BR].
  - intros k iv a c p. cbn zeta. assert (forall p, forallb byteb p = true <-> bytes_ok p) as FB.
    { intro l. rewrite forallb_forall. unfold bytes_ok. rewrite Forall_forall. unfold byteb, byte_ok. split; intros H x X; specialize (H x X); lia. }
    assert (forall p, bytes_ok p -> map (fun x => x mod 256) p = p) as MI.
    { intros l O. induction O as [|x l X _ IH]; [reflexivity|]. cbn [map]. rewrite IH. f_equal. red in X. dlia. }
    split.
    + destruct (forallb byteb (firstn (length c - 16) c)) eqn:E1; cbn [andb]; [|discriminate].
      destruct (eqb_list c _) eqn:E2; [|discriminate]. intros [= <-]. apply FB in E1. split; [exact E1|]. apply eqb_list_spec in E2. rewrite MI by exact E1. symmetry. exact E2.
    + intros [OP E]. rewrite MI in E by exact OP. subst c.
      assert (firstn (length (p ++ toy_tag k iv a p) - 16) (p ++ toy_tag k iv a p) = p) as ->.
      { rewrite app_length. unfold toy_tag at 1. rewrite repeat_length. replace (length p + 16 - 16)%nat with (length p) by lia. rewrite firstn_app, firstn_all, Nat.sub_diag, firstn_O. apply app_nil_r. }
      apply FB in OP. rewrite OP. cbn [andb]. assert (eqb_list (p ++ toy_tag k iv a p) (p ++ toy_tag k iv a p) = true) as -> by (apply eqb_list_spec; reflexivity). reflexivity.
Qed.

(** With a target MTU divisible by four (1200, say) and a GCM profile, feedback that fills the
    packet panics on the size assertion. *)
Definition full_nack (k : Z) (n : nat) : rtcp := Nack 1 k (map (fun i => NE i 0) (zseq 0 n)).
Theorem C19_feedback_fits_refuted :
  poll_feedback toy (mkCtx (Gcm (rep 0 12) (rep 0 16)) (Gcm (rep 0 12) (rep 0 16)) 0 []) 1200
    [full_nack 1 31; full_nack 2 31; full_nack 3 31; full_nack 4 31; full_nack 5 31; full_nack 6 31; full_nack 7 31; full_nack 8 31; full_nack 9 20] = Panic.
Proof. vm_compute. reflexivity. Qed.

(** ** The hypotheses can be met *)
Definition ex_header : header := mkH 2 false false 0 false 96 (70000 mod 65536) 1000 4660 [] ExtModel.ev0 12.
Example C18_example :
  exists buf sc, protect_rtp toy (mkCtx (Gcm (rep 3 12) (rep 1 16)) (Gcm (rep 3 12) (rep 1 16)) 0 []) (rep 5 12 ++ [1; 2; 3]) ex_header 70000 = Ok buf /\
   zlen buf = 31 /\ unprotect_rtp toy (mkCtx (Gcm (rep 3 12) (rep 1 16)) (Gcm (rep 3 12) (rep 1 16)) 0 [9; 9; 9; 9; 9]) buf ex_header 70000 = Ok (Some [1; 2; 3], sc).
Proof. do 2 eexists. vm_compute. repeat split. Qed.
Example C18_keying_example : exists rx tx, keying toy AES128_CM_SHA1_80 (zseq 0 60) true = Ok (rx, tx).
Proof. do 2 eexists. vm_compute. reflexivity. Qed.
Example C19_example : exists o1 o2, send_all toy (mkCtx (Cm (rep 3 20) (rep 3 14) (rep 1 16)) (Cm (rep 3 20) (rep 3 14) (rep 1 16)) 0 []) [zseq 0 12; zseq 0 12] = Ok [o1; o2] /\ o1 <> o2.
Proof. do 2 eexists. split; [vm_compute; reflexivity|discriminate]. Qed.

Print Assumptions C18_unprotect_exact.
Print Assumptions C18_end_to_end.
Print Assumptions C18_iv_unique.
Print Assumptions C19_fresh_index.
Print Assumptions C19_unprotect_exact.
Print Assumptions C19_feedback_fits_refuted.

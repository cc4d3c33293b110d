(** C32 for VP9.  Statements only. *)
From Verif Require Import Base BaseFacts Brute BufRxSpec Vp8Model Vp8Spec Vp8Proofs Vp9Model Vp9Spec Vp9Proofs Vp9Proofs2 Vp9Proofs3.

(** The default mode: for every frame, every MTU above the descriptor, every packetizer and every receiver
    history, the payloads fit, exactly the first one starts the frame, and feeding them gives the frame back, with the
    key frame flag, picture id, base layer index and the border of the only layer. *)
Theorem C32_vp9_round_trip : forall p mtu payload s p' pkts, reach9 s ->
  0 <= p9_pid p < 32768 -> 0 <= p9_tl0 p < 256 -> p9_mode p = NonFlexible -> payload <> [] -> 8 < mtu ->
  vp9_packetize p mtu payload = (p', pkts) ->
  fit mtu pkts /\ one_head vp9_head pkts /\
  exists s' x, feed vp9_dep s pkts [] None = (s', Some (payload, Some x)) /\
    x9_key x = vp9_keyframe_bitstream payload /\ x9_pid x = p9_pid p /\ x9_tl0 x = Some ((p9_tl0 p + 1) mod 256) /\ x9_tid x = Some 0 /\
    layer_end x 0 = Some (zlen payload) /\ layer_end x 1 = None /\ layer_end x 2 = None.
Proof. exact vp9_nf_round. Qed.
Print Assumptions C32_vp9_round_trip.

(** Flexible mode: the frame comes back too; but see [C32_vp9_flexible_keyframe_refuted]. *)
Theorem C32_vp9_flexible_round_trip : forall p mtu payload s p' pkts, reach9 s ->
  0 <= p9_pid p < 32768 -> p9_mode p = Flexible -> payload <> [] -> 3 < mtu ->
  vp9_packetize p mtu payload = (p', pkts) ->
  fit mtu pkts /\ one_head vp9_head pkts /\
  exists s' x, feed vp9_dep s pkts [] None = (s', Some (payload, Some x)) /\
    x9_key x = true /\ x9_pid x = p9_pid p /\ x9_tid x = None /\ (forall j, 0 <= j < 3 -> layer_end x j = None).
Proof. exact vp9_f_round. Qed.
Print Assumptions C32_vp9_flexible_round_trip.

(** The picture id advances by one for every frame sent, in 15 bits; the base layer index by one in the default mode. *)
Theorem C32_vp9_picture_id : forall p mtu payload p' pkts, 0 <= p9_pid p < 32768 -> payload <> [] -> 8 < mtu ->
  vp9_packetize p mtu payload = (p', pkts) ->
  p9_pid p' = (p9_pid p + 1) mod 32768 /\ p9_mode p' = p9_mode p /\
  p9_tl0 p' = match p9_mode p with NonFlexible => (p9_tl0 p + 1) mod 256 | Flexible => p9_tl0 p end.
Proof.
  intros p mtu payload p' pkts R NE M. unfold vp9_packetize, vp9_packetize_nf, vp9_packetize_f. cbv zeta.
  assert (1 <= zlen payload) as Q. { destruct payload; [congruence|]. rewrite zlen_cons. pose proof (zlen_nonneg payload). lia. }
  destruct ((zlen payload =? 0) || (mtu =? 0)) eqn:Q1; [lia|].
  destruct (Z.min (mtu - 3) (zlen payload) <=? 0) eqn:Q3; [lia|]. destruct (Z.min (mtu - 8) (zlen payload) <=? 0) eqn:Q2; [lia|].
  pose proof (land_mask (p9_pid p + 1) 15 ltac:(lia)) as LM.
  destruct (p9_mode p); intro E; apply (f_equal fst) in E; cbn [fst] in E; subst p'; cbn [p9_pid p9_mode p9_tl0]; repeat split; exact LM.
Qed.
Print Assumptions C32_vp9_picture_id.

(** With an MTU not above the descriptor nothing is sent and no error returned, although the base layer index moves on. *)
Theorem C32_vp9_small_mtu_drops : forall p mtu payload, payload <> [] -> 1 <= mtu <= 8 -> p9_mode p = NonFlexible ->
  vp9_packetize p mtu payload = (mkP9 (p9_pid p) ((p9_tl0 p + 1) mod 256) NonFlexible, []).
Proof.
  intros p mtu payload NE M MO. unfold vp9_packetize, vp9_packetize_nf. rewrite MO. cbv zeta.
  assert (1 <= zlen payload) as Q. { destruct payload; [congruence|]. rewrite zlen_cons. pose proof (zlen_nonneg payload). lia. }
  destruct ((zlen payload =? 0) || (mtu =? 0)) eqn:Q1; [lia|]. destruct (Z.min (mtu - 8) (zlen payload) <=? 0) eqn:Q2; [reflexivity|lia].
Qed.
Print Assumptions C32_vp9_small_mtu_drops.

(** Depacketizing never panics, whatever bytes came before and come now; what is added to the frame is a tail of the payload. *)
Theorem C32_vp9_never_panics : forall s packet out x, reach9 s -> bytes_ok packet -> extra_ok x ->
  match snd (vp9_depacketize s packet out x) with
  | Panic => False
  | Err => True
  | Ok (o, e) => extra_ok (Some e) /\ exists pre media, packet = pre ++ media /\ o = out ++ media
  end.
Proof.
  intros s packet out x R B XO. assert (length (x9_scheme (extra x)) = 3%nat) as XL by (destruct x; [exact XO|reflexivity]).
  destruct (vp9_sound s packet out x (reach_ok s R) B XL) as (_ & H). destruct (snd _) as [[o e]| |]; auto.
  destruct H as (H1 & m & pre & H2 & H3). split; [exact H1|]. exists pre, m. auto.
Qed.
Print Assumptions C32_vp9_never_panics.

(** Any RFC 9628 descriptor with at most three spatial layers is read as written: the media bytes start right behind
    it and every field is reported. *)
Theorem C32_vp9_descriptor : forall s d media out x, reach9 s -> desc_ok d -> extra_ok x ->
  (forall l, w_layer d = Some l -> layer_end (extra x) (l_sid l) = None \/ layer_end (extra x) (l_sid l) = Some (zlen out)) ->
  exists s' x', vp9_depacketize s (enc9 d ++ media) out x = (s', Ok (out ++ media, x')) /\ tells d (zlen out) (zlen media) (extra x) x'.
Proof.
  intros s d media out x R D XO F. destruct (dec_all s d media out x (reach_ok s R) D XO) as (s' & x' & E & _ & _ & T).
  { unfold fits. destruct (w_layer d) as [l|]; [apply F; reflexivity|exact I]. } eauto.
Qed.
Print Assumptions C32_vp9_descriptor.

(** Spatial layers: when a frame arrives lowest layer first, the data is all layers in order and [layers_scheme] gives for each
    layer present the end of its bytes, which is the total of the layers up to it. *)
Theorem C32_vp9_layers : forall s ps, reach9 s -> ps <> [] -> layered ps ->
  exists s' x', feed vp9_dep s (map (fun p => enc9 (fst p) ++ snd p) ps) [] None = (s', Some (concat (map snd ps), Some x')) /\
    forall j, 0 <= j < 3 ->
      ((exists p, In p ps /\ sid_of (fst p) = j) -> layer_end x' j = Some (upto j ps)) /\
      ((forall p, In p ps -> sid_of (fst p) <> j) -> layer_end x' j = None).
Proof.
  intros s ps R NE LA. destruct (feed_layered ps s [] None (-1)) as (s' & x' & F1 & _ & _ & F4 & _).
  - apply reach_ok. exact R.
  - exact I.
  - exact LA.
  - lia.
  - intros j J. cbn [extra]. unfold layer_end. assert (j = 0 \/ j = 1 \/ j = 2) as [-> | [-> | ->]] by lia; reflexivity.
  - lia.
  - destruct LA as (LA & _). rewrite Forall_forall in *. intros p IN. destruct (LA p IN) as ((_ & D & _) & W). unfold sid_of. destruct (w_layer (fst p)); [destruct D as (_ & D & _); lia|lia].
  - congruence.
  - exists s', x'. split; [exact F1|]. intros j J. specialize (F4 j J). split; intro H.
    + destruct H as (p & IN & E). assert (existsb (fun q => sid_of (fst q) =? j) ps = true) as EX by (apply existsb_exists; exists p; split; [exact IN|lia]).
      rewrite EX in F4. exact F4.
    + destruct (existsb (fun q => sid_of (fst q) =? j) ps) eqn:EX.
      * apply existsb_exists in EX. destruct EX as (q & IN & E). exfalso. apply (H q IN). lia.
      * rewrite F4. cbn [extra]. unfold layer_end. assert (j = 0 \/ j = 1 \/ j = 2) as [-> | [-> | ->]] by lia; reflexivity.
Qed.
Print Assumptions C32_vp9_layers.

(** The key frame test the packetizer uses is right for profiles 0, 1 and 3. *)
Theorem C32_vp9_keyframe : forall b r, byte_ok b -> profile9 b <> 2 -> vp9_keyframe_bitstream (b :: r) = true <-> key_frame9 (b :: r).
Proof.
  intros b r B P. assert (vp9_keyframe_bitstream (b :: r) = vp9_keyframe_bitstream [b]) as -> by reflexivity.
  assert (key_frame9 (b :: r) <-> exists low high rest, bits8 b = true :: false :: low :: high :: rest /\
    (if low && high then match rest with _ :: false :: false :: _ => true | _ => false end else match rest with false :: false :: _ => true | _ => false end) = true) as ->.
  { unfold key_frame9. split.
    - intros (b' & r' & low & high & rest & E & E2 & res & tl & -> & L). injection E as <- <-. exists low, high, (res ++ false :: false :: tl).
      split; [exact E2|]. destruct (low && high).
      + destruct res as [|x [|y res]]; [discriminate L|reflexivity|]. rewrite !zlen_cons in L. pose proof (zlen_nonneg res). lia.
      + apply zlen_0 in L. rewrite L. reflexivity.
    - intros (low & high & rest & E & H). exists b, r, low, high, rest. split; [reflexivity|]. split; [exact E|].
      destruct (low && high).
      + destruct rest as [|x [|[|] [|[|] tl]]]; try discriminate H. exists [x], tl. split; reflexivity.
      + destruct rest as [|[|] [|[|] tl]]; try discriminate H. exists [], tl. split; reflexivity. }
  pose proof (brute 256 (fun b => (profile9 b =? 2) || Bool.eqb (vp9_keyframe_bitstream [b])
    (match bits8 b with true :: false :: low :: high :: rest => if low && high then match rest with _ :: false :: false :: _ => true | _ => false end else match rest with false :: false :: _ => true | _ => false end | _ => false end))
    ltac:(vm_compute; reflexivity) b ltac:(unfold byte_ok in B; lia)) as Q. cbn beta in Q.
  destruct (profile9 b =? 2) eqn:PE; [lia|]. cbn [orb] in Q. apply Bool.eqb_prop in Q. rewrite Q. split.
  - intro H. destruct (bits8 b) as [|[|] [|[|] [|low [|high rest]]]]; try discriminate H. exists low, high, rest. auto.
  - intros (low & high & rest & -> & H). exact H.
Qed.
Print Assumptions C32_vp9_keyframe.

(** In profile 2 (10 and 12 bit video) the test expects a reserved bit that only profile 3 has: a shown key frame is taken for an inter frame
    and announced as such to the receiver. *)
Theorem C32_vp9_profile2_keyframe_refuted : exists payload, key_frame9 payload /\ vp9_keyframe_bitstream payload = false.
Proof. exists [146; 1]. split; [|reflexivity]. exists 146, [1], false, true, [false; false; true; false]. split; [reflexivity|]. split; [reflexivity|]. exists [], [true; false]. split; reflexivity. Qed.
Print Assumptions C32_vp9_profile2_keyframe_refuted.

(** In flexible mode every frame is received as a key frame, also an inter frame. *)
Theorem C32_vp9_flexible_keyframe_refuted : exists p mtu payload pkts p' s' x,
  p9_mode p = Flexible /\ ~ key_frame9 payload /\ vp9_packetize p mtu payload = (p', pkts) /\
  feed vp9_dep vp9d0 pkts [] None = (s', Some (payload, Some x)) /\ x9_key x = true /\ forallb vp9_keyframe pkts = true.
Proof.
  exists (mkP9 7 0 Flexible), 1200, [134; 1; 2], [[156; 128; 7; 134; 1; 2]], (mkP9 8 0 Flexible). eexists _, _.
  split; [reflexivity|]. split; [|split; [reflexivity|split; [vm_compute; reflexivity|split; reflexivity]]].
  intros (b & r & low & high & rest & E & E2 & res & tl & E3 & L). injection E as <- <-. vm_compute in E2. injection E2 as <- <- <-. cbn in L. apply zlen_0 in L. subst res. discriminate E3.
Qed.
Print Assumptions C32_vp9_flexible_keyframe_refuted.

(** The reserved bits of the scalability structure, which a receiver must ignore, are taken for the group flag: two bytes of media are lost. *)
Theorem C32_vp9_reserved_bits_refuted : exists s' x' s2 x2,
  vp9_depacketize vp9d0 ([10; 0] ++ [1; 128; 3; 4]) [] None = (s', Ok ([1; 128; 3; 4], x')) /\
  vp9_depacketize vp9d0 ([10; 2] ++ [1; 128; 3; 4]) [] None = (s2, Ok ([3; 4], x2)).
Proof. eexists _, _, _, _. split; vm_compute; reflexivity. Qed.
Print Assumptions C32_vp9_reserved_bits_refuted.

(** The layers of [layers_scheme] are documented as sorted; a frame whose upper layer comes first is accepted and reported with
    the borders crossed. *)
Theorem C32_vp9_layer_order_refuted : exists s' x', feed vp9_dep vp9d0 [[40; 2; 1; 7; 7]; [40; 0; 1; 5; 5; 5]] [] None = (s', Some ([7; 7; 5; 5; 5], Some x')) /\
  layer_end x' 1 = Some 2 /\ layer_end x' 0 = Some 5.
Proof. eexists _, _. split; [vm_compute; reflexivity|]. split; reflexivity. Qed.
Print Assumptions C32_vp9_layer_order_refuted.

(** A payload without a picture id is reported with the one of an earlier frame. *)
Theorem C32_vp9_stale_picture_id_refuted : exists s1 o1 x1 s2 x2,
  vp9_depacketize vp9d0 [140; 9; 1] [] None = (s1, Ok (o1, x1)) /\ vp9_depacketize s1 [12; 2] [] None = (s2, Ok ([2], x2)) /\ x9_pid x2 = 9.
Proof. eexists _, _, _, _, _. split; [vm_compute; reflexivity|]. split; [vm_compute; reflexivity|]. reflexivity. Qed.
Print Assumptions C32_vp9_stale_picture_id_refuted.

(** The picture groups of all scalability structures ever received are kept: memory grows with every one of them. *)
Fixpoint again (n : nat) (s : vp9d) : vp9d := match n with O => s | S n => again n (fst (vp9_depacketize s [10; 8; 1; 0] [] None)) end.
Lemma again_grows : forall n s, length (d_pgtid (again n s)) = (length (d_pgtid s) + n)%nat.
Proof. induction n as [|n IH]; intro s; cbn [again]; [lia|]. rewrite IH. replace (d_pgtid (fst (vp9_depacketize s [10; 8; 1; 0] [] None))) with (d_pgtid s ++ [0]). { rewrite app_length. cbn. lia. }
  destruct s as [fl pid tid u sid dd pd tl ns yy gg ng w h pt pu pp]. unfold vp9_depacketize. cbn -[parse_group]. destruct pp; reflexivity. Qed.
Theorem C32_vp9_memory_refuted : forall bound, exists s, reach9 s /\ (bound < length (d_pgtid s))%nat.
Proof.
  intro bound. exists (again (S bound) vp9d0). split; [|rewrite again_grows; cbn; lia].
  generalize reach9_new. generalize (S bound) vp9d0. induction n as [|n IH]; intros s R; cbn [again]; [exact R|]. apply IH. apply reach9_step; [exact R| |reflexivity].
  repeat constructor; unfold byte_ok; lia.
Qed.
Print Assumptions C32_vp9_memory_refuted.

(** Non-trivial cases. *)
Example vp9_three_packets : vp9_packetize (mkP9 300 255 NonFlexible) 12 [130; 1; 2; 3; 4; 5; 6; 7; 8; 9] =
  (mkP9 301 0 NonFlexible, [[170; 129; 44; 16; 0; 0; 130; 1; 2; 3]; [160; 129; 44; 16; 0; 4; 5; 6; 7]; [164; 129; 44; 16; 0; 8; 9]]).
Proof. vm_compute. reflexivity. Qed.
Example vp9_descriptor_example : desc_ok (mkW (Some (true, 4711)) true (Some (mkLay 2 true 1 true 9)) true true false
    (Some (mkSS 2 (Some [(640, 360); (1280, 720)]) (Some [mkPic 0 true []; mkPic 1 false [1; 3]]))) false [1; 4]) .
Proof.
  unfold desc_ok. cbn. repeat split; unfold byte_ok; try lia; try discriminate; repeat constructor; unfold pic_ok, byte_ok; cbn; repeat split; try lia; repeat constructor; unfold byte_ok; lia.
Qed.

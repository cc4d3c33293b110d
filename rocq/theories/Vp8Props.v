(** C32 (Opus, G.7xx, comfort noise, VP8) and C37.  Statements only. *)
From Verif Require Import Base BaseFacts SeqModel BufRxSpec Vp8Model Vp8Spec Vp8Proofs Vp8DescProofs.

(** Opus, G.711/G.722 and the null codec: payloads fit, and concatenating them is the frame. *)
Theorem C32_plain_round_trip : forall mtu payload, payload <> [] -> 1 <= mtu ->
  fit mtu (plain_packetize mtu payload) /\ feed plain_dep tt (plain_packetize mtu payload) [] tt = (tt, Some (payload, tt)).
Proof. exact plain_round. Qed.
Print Assumptions C32_plain_round_trip.

(** Comfort noise: one payload or a refusal, never a split. *)
Theorem C32_noise_round_trip : forall mtu payload, payload <> [] -> 
  (zlen payload <= mtu -> noise_packetize mtu payload = Ok [payload] /\ noise_depacketize [] payload = Some payload) /\
  (mtu < zlen payload -> noise_packetize mtu payload = Err).
Proof.
  intros mtu payload NE. assert (zlen payload =? 0 = false) as Q. { destruct payload; [congruence|]. rewrite zlen_cons. pose proof (zlen_nonneg payload). lia. }
  unfold noise_packetize, noise_depacketize. rewrite Q. split; intro H.
  - destruct (mtu <? zlen payload) eqn:Q2; [lia|]. split; reflexivity.
  - destruct (mtu <? zlen payload) eqn:Q2; [reflexivity|lia].
Qed.
Print Assumptions C32_noise_round_trip.

(** VP8: for every frame, MTU larger than the descriptor, packetizer state and receiver state, the
    payloads fit, exactly the first one starts the frame, and feeding them to the depacketizer gives
    the frame back, with key frame flag and picture id. *)
Theorem C32_vp8_round_trip : forall p mtu payload s p' pkts,
  0 <= picture_id p < 32768 -> d_ok s -> payload <> [] -> header_size p < mtu ->
  vp8_packetize p mtu payload = (p', pkts) ->
  fit mtu pkts /\ one_head vp8_head pkts /\
  exists s' x, feed vp8_dep s pkts [] None = (s', Some (payload, Some x)) /\ d_ok s' /\
    (x_key x = true <-> exists h r, payload = h :: r /\ Z.land h 1 = 0) /\
    (if enable_picture_id p then exists e, x_pid x = Some e /\ ext_pid s' = Some e /\ 0 <= e < 2 ^ 64 /\ e mod 2 ^ pw p = picture_id p
     else x_pid x = None).
Proof. exact vp8_round. Qed.
Print Assumptions C32_vp8_round_trip.

(** The picture id advances by one, in 15 bits, for every frame sent. *)
Theorem C32_vp8_picture_id : forall p mtu payload p' pkts, 0 <= picture_id p < 32768 -> payload <> [] -> header_size p < mtu ->
  vp8_packetize p mtu payload = (p', pkts) ->
  picture_id p' = (picture_id p + 1) mod 32768 /\ enable_picture_id p' = enable_picture_id p.
Proof.
  intros p mtu payload p' pkts R NE M. unfold vp8_packetize.
  assert (1 <= zlen payload) as Q. { destruct payload; [congruence|]. rewrite zlen_cons. pose proof (zlen_nonneg payload). lia. }
  assert (0 < header_size p) as H by (unfold header_size; destruct (enable_picture_id p), (picture_id p <? 128); lia).
  destruct ((zlen payload =? 0) || (mtu =? 0)) eqn:Q1; [lia|].
  destruct (Z.min (mtu - header_size p) (zlen payload) <=? 0) eqn:Q2; [lia|]. intro E. injection E as <- <-. cbn [picture_id enable_picture_id].
  split; [|reflexivity]. apply (land_mask _ 15). lia.
Qed.
Print Assumptions C32_vp8_picture_id.

(** With an MTU not larger than the descriptor the frame vanishes without an error. *)
Theorem C32_vp8_small_mtu_drops : forall p mtu payload, 0 <= mtu <= header_size p -> vp8_packetize p mtu payload = (p, []).
Proof.
  intros p mtu payload M. unfold vp8_packetize. destruct ((zlen payload =? 0) || (mtu =? 0)); [reflexivity|].
  destruct (Z.min (mtu - header_size p) (zlen payload) <=? 0) eqn:Q; [reflexivity|lia].
Qed.

(** C37.  The descriptor view and the depacketizer accept the same payloads and see the same media
    bytes; the three key frame tests agree. *)
Theorem C37_views_agree : forall pl s out x,
  match desc_parse pl with
  | None => snd (vp8_depacketize s pl out x) = None
  | Some d => exists m s' x', vp8_depacketize s pl out x = (s', Some (out ++ m, x')) /\ m <> [] /\
      pl = firstn (Z.to_nat (payload_offset d)) pl ++ m /\ zlen pl = payload_offset d + zlen m /\
      starts_keyframe d pl = detect_vp8_keyframe pl /\ (x = None -> x_key x' = starts_keyframe d pl)
  end.
Proof.
  intros pl s out x. destruct (desc_parse pl) as [d|] eqn:E.
  - destruct (parse_shape _ _ E) as (m & SH). destruct (shape_parse _ _ _ SH) as (_ & NE & E1 & E2).
    destruct (shape_dep _ _ _ SH s out x) as (s' & x' & E3 & E4). exists m, s', x'. repeat split; auto.
    + assert (0 <= payload_offset d < zlen pl). 
      { split. 2: { unfold desc_parse in E. destruct pl; [discriminate|]. match type of E with match ?q with _ => _ end = _ => destruct q as [d'|]; [|discriminate] end.
        destruct (zlen (z :: pl) <=? payload_offset d') eqn:Q; [discriminate|]. injection E as <-. lia. }
        destruct SH as [|b0 e p q k h r dp dt dk o1 o2 o3 B LT HP HQ HK]; cbn [payload_offset]; [lia|].
        destruct (bit e 128); [destruct HP as (b & [(_ & lo & _ & _ & ->)|(_ & _ & _ & ->)])|destruct HP as (_ & _ & ->)];
        (destruct (bit e 64); [destruct HQ as (? & _ & _ & ->)|destruct HQ as (_ & _ & ->)];
        (destruct (bit e 32 || bit e 16); [destruct HK as (? & _ & _ & ->)|destruct HK as (_ & _ & ->)]; lia)). }
      rewrite <- E2. unfold zlen in *. rewrite skipn_length. lia.
    + eapply shape_detect; eauto.
  - destruct (vp8_depacketize s pl out x) as [s' [[o x']|]] eqn:E2; [|reflexivity].
    destruct (dep_shape _ _ _ _ _ _ _ E2) as (d & m & SH & _). destruct (shape_parse _ _ _ SH) as (E3 & _). congruence.
Qed.
Print Assumptions C37_views_agree.

(** A patch is produced exactly when every requested field is present and wide enough; then applying
    it succeeds, changes no length, replaces exactly the requested fields, and leaves the media and
    everything else the receiver sees alone. *)
Theorem C37_patch : forall pl d pid tl0 key, bytes_ok pl -> ovalid 65536 pid -> ovalid 256 tl0 -> ovalid 256 key ->
  desc_parse pl = Some d ->
  match build d pid tl0 key with
  | None => ~ can_patch d pid tl0 key
  | Some patch => can_patch d pid tl0 key /\ exists pl' vp vt vk m, copy_to patch pl = Ok pl' /\ zlen pl' = zlen pl /\ bytes_ok pl' /\
      view pl = Some (vp, vt, vk, m) /\ view pl' = Some (over pid vp, over tl0 vt, over key vk, m) /\
      forall s out x, exists s1 x1 s2 x2, vp8_depacketize s pl out x = (s1, Some (out ++ m, x1)) /\
        vp8_depacketize s pl' out x = (s2, Some (out ++ m, x2)) /\
        discardable x2 = discardable x1 /\ sync x2 = sync x1 /\ layer_index x2 = layer_index x1 /\ x_key x2 = x_key x1
  end.
Proof.
  intros pl d pid tl0 key BO VP VT VK E.
  assert (match build d pid tl0 key with None => ~ can_patch d pid tl0 key | Some _ => can_patch d pid tl0 key end) as CP.
  { unfold build, can_patch, writable, ovalid in *. clear E BO.
    destruct d as [o dp dt dk]; cbn [d_pid d_tl0 d_key].
    destruct pid as [p|]; [destruct dp as [[[? ?] [|]]|]|].
    1,2: (destruct (32767 <? p) eqn:Q1; [try (intros (A & _); lia)|]); try (destruct (127 <? p) eqn:Q3; cbn [negb andb]; [try (intros (A & _); lia)|]); cbn [negb andb].
    all: try (destruct tl0 as [t|]; [destruct dt as [[? ?]|]|]; (destruct key as [k|]; [destruct dk as [[? ?]|]; [destruct (31 <? k) eqn:Q4|]|])).
    all: try tauto; try (repeat split; lia); try (intros (_ & _ & A); lia). all: try (intros (A & _); lia). }
  destruct (build d pid tl0 key) as [patch|] eqn:BU; [|exact CP]. split; [exact CP|].
  destruct (parse_shape _ _ E) as (m & SH).
  destruct (patch_shape pl d m pid tl0 key patch BO VP VT VK SH BU) as (pl' & d' & C & L & B' & SH' & PO & V1 & V2 & V3 & DEP).
  destruct (shape_parse _ _ _ SH) as (E1 & _ & _ & E2). destruct (shape_parse _ _ _ SH') as (E1' & _ & _ & E2').
  exists pl'. eexists _, _, _, m. split; [exact C|]. split; [exact L|]. split; [exact B'|]. split.
  { unfold view. rewrite E1, E2. reflexivity. }
  split. { unfold view. rewrite E1', E2', V1, V2, V3. reflexivity. }
  intros s out x. destruct (shape_dep _ _ _ SH s out x) as (s1 & x1 & D1 & _). destruct (DEP _ _ _ _ _ _ D1) as (s2 & x2 & D2 & R).
  exists s1, x1, s2, x2. auto.
Qed.
Print Assumptions C37_patch.

(** A three packet frame with a two byte picture id, and a descriptor with every field. *)
Example vp8_three : snd (vp8_packetize (mkVp true 300) 6 [157; 1; 2; 3; 4]) =
  [[144; 128; 129; 44; 157; 1]; [128; 128; 129; 44; 2; 3]; [128; 128; 129; 44; 4]].
Proof. reflexivity. Qed.
Example vp8_three_back : snd (feed vp8_dep vp8d0 (snd (vp8_packetize (mkVp true 300) 6 [156; 1; 2; 3; 4])) [] None) =
  Some ([156; 1; 2; 3; 4], Some (mkX false false 0 (Some 300) None true)).
Proof. reflexivity. Qed.
Definition full : list Z := [144; 240; 129; 44; 7; 101; 156; 1; 2].
Example full_view : view full = Some (Some 300, Some 7, Some 5, [156; 1; 2]).
Proof. reflexivity. Qed.
Example full_patched : exists d p pl', desc_parse full = Some d /\ build d (Some 511) (Some 9) (Some 30) = Some p /\ copy_to p full = Ok pl' /\
  pl' = [144; 240; 129; 255; 9; 126; 156; 1; 2] /\ view pl' = Some (Some 511, Some 9, Some 30, [156; 1; 2]).
Proof. eexists _, _, _. repeat split. Qed.
Example full_too_wide : exists d, desc_parse full = Some d /\ build d (Some 32768) None None = None /\ build d None None (Some 32) = None.
Proof. eexists. repeat split. Qed.

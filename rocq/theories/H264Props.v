(** C32 for H.264.  Statements only. *)
From Verif Require Import Base BaseFacts BufRxSpec Vp8Model Vp8Spec H264Model H264Spec H264Proofs H264Proofs2.

(** For every sequence of NAL units in an Annex B stream (any start code lengths), every MTU of at
    least three bytes that holds the parameter sets, and whatever parameter sets are held back from
    before: packetizing succeeds, every payload fits, and feeding the payloads to a depacketizer
    without unfinished fragments gives exactly the delivered units; the frame is reported as a key
    frame exactly if one of them is an IDR slice, and exactly then some payload is detected as one. *)
Theorem C32_h264_round_trip : forall avc mtu us s p,
  3 <= mtu -> us <> [] -> Forall nal (map snd us) -> Forall (fun n => zlen n < 2 ^ 32) (map snd us) -> holds s p ->
  sets_fit mtu (olist s ++ olist p ++ map snd us) ->
  let ds := snd (deliver s p (map snd us)) in
  let key := existsb (fun n => ty n =? 5) ds in
  exists s' p' pkts, h264_packetize (mkHp s p) mtu (annex_b us) = Ok (mkHp s' p', pkts) /\
    (s', p') = fst (deliver s p (map snd us)) /\ holds s' p' /\
    Forall (fun q => 0 < zlen q <= mtu) pkts /\
    feed h264_depacketize (mkHd avc None) pkts [] None =
      (mkHd avc None, Some (framed avc ds, match ds with [] => None | _ => Some key end)) /\
    existsb detect_h264_keyframe pkts = key.
Proof.
  intros avc mtu us s p M NE F L HO SF. cbv zeta. rewrite packetize_annex by (assumption || lia).
  destruct (emits (mkHp s p) (map snd us) mtu) as [st pkts] eqn:E. destruct (deliver s p (map snd us)) as [[s' p'] ds] eqn:D.
  destruct (emits_ok avc mtu M _ s p st pkts _ _ [] None F L HO SF E D) as (A & B & C & G & H). cbn [fst snd] in *. subst st.
  exists s', p', pkts. rewrite <- marks_none. repeat split; auto; apply B.
Qed.
Print Assumptions C32_h264_round_trip.

(** A single unit without any start code is taken as it is. *)
Theorem C32_h264_bare_unit : forall avc mtu n, 3 <= mtu -> nal n -> zlen n < 2 ^ 32 -> ~ In (ty n) [7; 8; 9; 12] ->
  exists pkts, h264_packetize (mkHp None None) mtu n = Ok (mkHp None None, pkts) /\ fit mtu pkts /\
    feed h264_depacketize (mkHd avc None) pkts [] None = (mkHd avc None, Some (framed avc [n], Some (ty n =? 5))) /\
    existsb detect_h264_keyframe pkts = (ty n =? 5).
Proof.
  intros avc mtu n M N L NI. rewrite packetize_bare by (assumption || lia).
  destruct (emits (mkHp None None) [n] mtu) as [st pkts] eqn:E.
  assert (deliver None None [n] = ((None, None), [n])) as D by (apply paired_deliver; constructor; [exact NI|constructor]).
  assert (sets_fit mtu (olist None ++ olist None ++ [n])) as SF. { intros a b [-> |[]] _ T _. exfalso. apply NI. cbn. auto. }
  destruct (emits_ok avc mtu M _ None None st pkts _ _ [] None (Forall_cons _ N (Forall_nil _)) (Forall_cons (P := fun n => zlen n < U32) _ L (Forall_nil _)) (conj (Forall_nil _) (Forall_nil _)) SF E D) as (A & B & C & G & H).
  cbn [fst snd] in *. subst st. exists pkts. rewrite marks_none in C. cbn [existsb] in C, H. rewrite orb_false_r in C, H. repeat split; auto.
  intro EP. subst pkts. cbn [feed] in C. injection C as C _. unfold framed in C. cbn [map concat] in C. destruct avc; discriminate C.
Qed.
Print Assumptions C32_h264_bare_unit.

(** If parameter sets come in pairs before another unit, as encoders emit them, nothing is lost,
    added or reordered. *)
Theorem C32_h264_lossless : forall avc mtu us,
  3 <= mtu -> us <> [] -> Forall nal (map snd us) -> Forall (fun n => zlen n < 2 ^ 32) (map snd us) ->
  sets_fit mtu (map snd us) -> paired (map snd us) ->
  exists pkts, h264_packetize (mkHp None None) mtu (annex_b us) = Ok (mkHp None None, pkts) /\ fit mtu pkts /\
    feed h264_depacketize (mkHd avc None) pkts [] None =
      (mkHd avc None, Some (framed avc (map snd us), Some (existsb (fun n => ty n =? 5) (map snd us)))).
Proof.
  intros avc mtu us M NE F L SF PA. pose proof (paired_deliver _ PA) as D.
  destruct (C32_h264_round_trip avc mtu us None None M NE F L (conj (Forall_nil _) (Forall_nil _)) SF) as (s' & p' & pkts & E & HS & _ & G & H & _).
  rewrite D in *. cbn [fst snd] in *. injection HS as -> ->. exists pkts. split; [exact E|].
  assert (map snd us <> []) as NM by (destruct us; [congruence|discriminate]).
  split.
  - split; [|exact G]. intros ->. cbn [feed] in H. destruct (map snd us) as [|n ns] eqn:EM; [congruence|]. injection H as H _.
  unfold framed in H. cbn [map concat] in H. destruct avc; discriminate H.
  - rewrite H. destruct (map snd us); [congruence|reflexivity].
Qed.
Print Assumptions C32_h264_lossless.

(** Without room for both parameter sets in one payload they are dropped without an error. *)
Definition big_sets : list (nat * list Z) := [(0%nat, 103 :: repeat 1 12); (0%nat, 104 :: repeat 1 12); (0%nat, [101; 9; 9])].
Theorem C32_h264_sets_too_large_refuted : exists st pkts,
  h264_packetize (mkHp None None) 20 (annex_b big_sets) = Ok (st, pkts) /\ paired (map snd big_sets) /\
  snd (feed h264_depacketize (mkHd false None) pkts [] None) = Some (framed false [[101; 9; 9]], Some true).
Proof.
  eexists _, _. split; [vm_compute; reflexivity|]. split; [|vm_compute; reflexivity].
  apply paired_sets; try reflexivity; [cbn; lia|constructor].
Qed.
(** A fragment without its end stays in the depacketizer and ends up in front of the next fragmented unit. *)
Theorem C32_h264_unfinished_fragment_refuted : exists pkts s1,
  h264_packetize (mkHp None None) 4 [65; 1; 2; 3; 4] = Ok (mkHp None None, pkts) /\
  feed h264_depacketize (mkHd false None) (firstn 1 pkts) [] None = (s1, Some ([], None)) /\
  snd (feed h264_depacketize s1 pkts [] None) = Some (framed false [[65; 1; 2; 1; 2; 3; 4]], Some false).
Proof. eexists _, _. split; [vm_compute; reflexivity|]. split; [vm_compute; reflexivity|]. vm_compute; reflexivity. Qed.
(** A one-byte unit (end of sequence) is not recognised as the start of a frame. *)
Theorem C32_h264_one_byte_head_refuted : exists pkts, h264_packetize (mkHp None None) 1200 [10] = Ok (mkHp None None, pkts) /\
  map h264_head pkts = [false].
Proof. eexists. split; reflexivity. Qed.

(** SPS, PPS and a fragmented IDR slice at MTU 15. *)
Definition frame1 : list (nat * list Z) := [(1%nat, [103; 66; 0; 10]); (0%nat, [104; 1]); (1%nat, 101 :: repeat 7 20); (3%nat, [65; 0; 0; 2])].
Example frame1_ok : paired (map snd frame1) /\ Forall nal (map snd frame1) /\ sets_fit 15 (map snd frame1).
Proof.
  split; [|split].
  - apply paired_sets; try reflexivity; [cbn; lia|]. apply paired_one; [cbn; lia|constructor].
  - repeat constructor; try (cbn; lia); try (eexists _, _; repeat split; cbn; lia).
    all: intros a; first [intros b E|intros E]; cbn [snd repeat] in E;
      repeat (destruct a as [|? a]; cbn [app] in E; [discriminate E|]; try discriminate E; injection E; clear E; intros E _).
  - intros a b Ha Hb Ta Tb. cbn in Ha, Hb. destruct Ha as [<-|[<-|[<-|[<-|[]]]]]; try discriminate Ta. destruct Hb as [<-|[<-|[<-|[<-|[]]]]]; try discriminate Tb. cbn. lia.
Qed.
Example frame1_packets : exists pkts, h264_packetize (mkHp None None) 15 (annex_b frame1) = Ok (mkHp None None, pkts) /\ map zlen pkts = [11; 15; 9; 4].
Proof. eexists. split; vm_compute; reflexivity. Qed.

(** Key frame detection on any packet of a foreign sender: a single unit exactly when it is an IDR
    slice, an aggregate exactly when one of its whole units is (a truncated or empty last unit
    counts for nothing), a fragment exactly when it is the first of an IDR slice. *)
Definition aggregate (us : list (list Z)) : list Z := concat (map (fun n => be16 (zlen n) ++ n) us).
(** What may follow the last whole unit: nothing, half a length, a truncated unit, or an empty unit. *)
Definition ragged (l : list Z) : Prop :=
  match l with
  | hi :: lo :: r => byte_ok hi /\ byte_ok lo /\ (zlen r < hi * 256 + lo \/ (hi = 0 /\ lo = 0 /\ r = []))
  | _ => True
  end.
Lemma be16_val hi lo : byte_ok hi -> byte_ok lo -> Z.lor (Z.shiftl hi 8) lo = hi * 256 + lo.
Proof. intros H L. red in H, L. rewrite Z.shiftl_mul_pow2 by lia. change (2 ^ 8) with 256. apply (lor_add _ _ 8); [lia|exact L|]. change (2 ^ 8) with 256. dlia. Qed.
Lemma stap_key_spec us : forall fuel tl, Forall (fun n => 0 < zlen n < 65536) us -> ragged tl -> (length (aggregate us ++ tl) < fuel)%nat ->
  stap_key fuel (aggregate us ++ tl) = existsb (fun n => ty n =? 5) us.
Proof.
  induction us as [|n us IH]; intros fuel tl F R L; (destruct fuel as [|fuel]; [lia|]).
  - cbn [aggregate map concat app existsb stap_key]. destruct tl as [|hi [|lo r]]; try reflexivity. destruct R as (B1 & B2 & R). rewrite be16_val by assumption.
    red in B1, B2. destruct R as [R|(-> & -> & ->)]; [replace (zlen r <? hi * 256 + lo) with true by lia; reflexivity|].
    cbn [zlen length Z.of_nat Z.ltb Z.compare Z.mul Z.add orb]. destruct fuel; reflexivity.
  - inversion F as [|? ? [N1 N2] F']; subst. assert (aggregate (n :: us) ++ tl = zlen n / 256 mod 256 :: zlen n mod 256 :: n ++ aggregate us ++ tl) as A.
    { unfold aggregate. cbn [map concat be16 app]. rewrite <- app_assoc. reflexivity. }
    rewrite A in *. cbn [existsb stap_key]. cbn zeta. cbn [length] in L. rewrite !lor16 by (split; [lia|exact N2]).
    rewrite !zlen_app. pose proof (zlen_nonneg (aggregate us)). pose proof (zlen_nonneg tl).
    replace (_ <? zlen n) with false by lia. destruct n as [|b0 n]; [cbn in N1; lia|]. cbn [app ty]. f_equal.
    change (b0 :: n ++ aggregate us ++ tl) with ((b0 :: n) ++ aggregate us ++ tl).
    rewrite skipn_app. unfold zlen. rewrite Nat2Z.id, skipn_all, Nat.sub_diag, skipn_O, app_nil_l. apply IH; [exact F'|exact R|]. rewrite app_length in L. cbn [length] in L. lia.
Qed.
Theorem C32_h264_keyframe_packets : forall b r, byte_ok b ->
  (1 <= nal_type b <= 23 -> detect_h264_keyframe (b :: r) = (nal_type b =? 5)) /\
  (nal_type b = 24 -> forall us tl, Forall (fun n => 0 < zlen n < 65536) us -> ragged tl ->
     detect_h264_keyframe (b :: aggregate us ++ tl) = existsb (fun n => ty n =? 5) us) /\
  (nal_type b = 28 -> detect_h264_keyframe [b] = false /\
     forall f d, detect_h264_keyframe (b :: f :: d) = bit f 128 && (nal_type f =? 5)) /\
  (nal_type b = 0 \/ 24 < nal_type b /\ nal_type b <> 28 -> detect_h264_keyframe (b :: r) = false).
Proof.
  intros b r B. unfold detect_h264_keyframe. split; [|split; [|split]].
  - intro T. replace (_ && _) with true by lia. reflexivity.
  - intros T us tl F R. replace (_ && _) with false by lia. replace (nal_type b =? 24) with true by lia. apply stap_key_spec; [exact F|exact R|lia].
  - intro T. replace (_ && _) with false by lia. replace (nal_type b =? 24) with false by lia. replace (nal_type b =? 28) with true by lia. auto.
  - intro T. replace (_ && _) with false by lia. replace (nal_type b =? 24) with false by lia. replace (nal_type b =? 28) with false by lia. reflexivity.
Qed.
Print Assumptions C32_h264_keyframe_packets.
Example C32_h264_keyframe_example : detect_h264_keyframe (24 :: aggregate [[103; 1]; [104; 2]; [101; 3; 4]] ++ [0]) = true /\ detect_h264_keyframe [28; 133; 9] = true.
Proof. split; reflexivity. Qed.

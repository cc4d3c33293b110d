(** C17.  Statements only. *)
From Verif Require Import Base BaseFacts Brute DemuxModel DemuxSpec ExtModel HeaderModel ExtSpec HeaderSpec ExtProofs.

Lemma pt_range b : byte_ok b -> (64 <= Z.land b 127 < 96 <-> 192 <= b <= 223 \/ 64 <= b <= 95).
Proof.
  intro B. pose proof (brute 256 (fun b => Bool.eqb ((64 <=? Z.land b 127) && (Z.land b 127 <? 96)) (((192 <=? b) && (b <=? 223)) || ((64 <=? b) && (b <=? 95))))
    ltac:(vm_compute; reflexivity) b B) as Q. cbn beta in Q. apply eqb_prop in Q. lia.
Qed.

(** Classification never panics, is by the table and only by the table. *)
Theorem C17_classify : forall d, bytes_ok d -> classify d <> Panic /\
  (forall k, classify d = Ok k <-> d <> [] /\ rfc (byte_at d 0) (byte_at d 1) (zlen d) k).
Proof.
  intros d B. unfold classify. destruct d as [|b0 r]. { cbn. split; [discriminate|]. intro k. split; [discriminate|intros [? _]; congruence]. }
  pose proof (zlen_nonneg r) as L. pose proof (Forall_inv B) as B0. unfold byte_ok in B0.
  assert (zlen (b0 :: r) =? 0 = false) as -> by (rewrite zlen_cons; lia). change (idx (b0 :: r) 0) with (@Ok Z b0). cbn [bind].
  change (byte_at (b0 :: r) 0) with b0.
  destruct ((b0 <? 2) && (20 <=? zlen (b0 :: r))) eqn:Q1.
  { split; [discriminate|]. intro k. split; [intro E; injection E as <-; split; [discriminate|]; cbn [rfc]; lia|].
    intros [_ R]. destruct k; cbn [rfc] in R; try lia; reflexivity. }
  destruct ((20 <=? b0) && (b0 <? 64)) eqn:Q2.
  { split; [discriminate|]. intro k. split; [intro E; injection E as <-; split; [discriminate|]; cbn [rfc]; lia|].
    intros [_ R]. destruct k; cbn [rfc] in R; try lia; reflexivity. }
  destruct ((128 <=? b0) && (b0 <? 192) && (2 <? zlen (b0 :: r))) eqn:Q3.
  - destruct r as [|b1 r]. { cbn in Q3. lia. } change (idx (b0 :: b1 :: r) 1) with (@Ok Z b1). cbn [bind]. change (byte_at (b0 :: b1 :: r) 1) with b1.
    pose proof (Forall_inv (Forall_inv_tail B)) as B1. pose proof (pt_range b1 B1) as PT.
    split; [discriminate|]. intro k. split.
    + intro E. injection E as <-. split; [discriminate|].
      destruct (Z.land b1 127 <? 64) eqn:Q4; [cbn [rfc]; rewrite <- PT; lia|]. destruct ((64 <=? Z.land b1 127) && (Z.land b1 127 <? 96)) eqn:Q5; cbn [rfc]; rewrite <- PT; lia.
    + intros [_ R]. f_equal. destruct k; cbn [rfc] in R; try rewrite <- PT in R; try lia.
      * destruct (Z.land b1 127 <? 64) eqn:Q4; [reflexivity|]. destruct ((64 <=? Z.land b1 127) && (Z.land b1 127 <? 96)) eqn:Q5; [lia|reflexivity].
      * destruct (Z.land b1 127 <? 64) eqn:Q4; [lia|]. destruct ((64 <=? Z.land b1 127) && (Z.land b1 127 <? 96)) eqn:Q5; [reflexivity|lia].
  - split; [discriminate|]. intro k. split; [discriminate|]. intros [_ R]. destruct k; cbn [rfc] in R; lia.
Qed.
Print Assumptions C17_classify.

(** The table has at most one row for a datagram. *)
Theorem C17_unique : forall b0 b1 n k k', rfc b0 b1 n k -> rfc b0 b1 n k' -> k = k'.
Proof. intros b0 b1 n k k' H H'. destruct k, k'; cbn in *; try reflexivity; lia. Qed.

(** Own output comes back as RTP: every header str0m writes, with whatever follows it, provided the
    payload type is not one of 64 to 95. *)
Theorem C17_rtp_own : forall cap h m bs payload, header_ok h -> bytes_ok (bs ++ payload) -> ~ 64 <= payload_type h <= 95 ->
  write_header cap h m = Ok bs -> classify (bs ++ payload) = Ok KRtp.
Proof.
  intros cap h m bs payload H BO P W. apply C17_classify; [exact BO|]. destruct H as [_ C _ PT _ _ _]. unfold write_header in W.
  destruct (15 <? csrc_count h); [discriminate|]. destruct (127 <? payload_type h); [discriminate|].
  destruct (upto (csrc h) (csrc_count h)) as [cs| |]; try discriminate. cbn [bind] in W.
  destruct (cap <? _); [discriminate|]. destruct (write_exts _ _ _ _ _) as [eb| |]; try discriminate. cbn [bind] in W.
  destruct (cap <? _); [discriminate|]. match type of W with Ok ?t = Ok ?u => assert (u = t) as -> by congruence end.
  split; [discriminate|]. unfold byte_at, be16; cbn [app nth]; rewrite !zlen_cons. match goal with |- context [zlen ?l] => pose proof (zlen_nonneg l) as LN; set (L := zlen l) in *; clearbody L end.
  set (fl := (if has_padding h then 2 else 0) + (if has_extension h then 1 else 0)).
  assert (Z.lor (Z.lor (Z.lor 128 (if has_padding h then 32 else 0)) (if has_extension h then 16 else 0)) (csrc_count h) = Z.lor (128 + 16 * fl) (csrc_count h) /\ 0 <= fl < 4) as [-> FL].
  { subst fl. destruct (has_padding h), (has_extension h); split; (reflexivity || lia). }
  clearbody fl. pose proof (brute2 4 16 (fun f c => let b := Z.lor (128 + 16 * f) c in (128 <=? b) && (b <=? 191)) ltac:(vm_compute; reflexivity) fl (csrc_count h) FL ltac:(lia)) as Q. cbv beta zeta in Q.
  set (b1 := Z.lor (Z.land (payload_type h) 127) (if marker h then 128 else 0)).
  pose proof (brute2 128 2 (fun p m => let b := Z.lor (Z.land p 127) (if m =? 1 then 128 else 0) in Bool.eqb ((64 <=? p) && (p <=? 95)) (((192 <=? b) && (b <=? 223)) || ((64 <=? b) && (b <=? 95)))) ltac:(vm_compute; reflexivity)
    (payload_type h) (if marker h then 1 else 0) ltac:(lia) ltac:(destruct (marker h); lia)) as Q2. cbv beta zeta in Q2.
  assert ((if (if marker h then 1 else 0) =? 1 then 128 else 0) = if marker h then 128 else 0) as EM by (destruct (marker h); reflexivity). rewrite EM in Q2. fold b1 in Q2.
  apply eqb_prop in Q2. clearbody b1. set (b0 := Z.lor (128 + 16 * fl) (csrc_count h)) in *. clearbody b0. clear - P Q Q2 LN. cbn [rfc]. lia.
Qed.
Print Assumptions C17_rtp_own.

Example demux_rtp : classify [128; 96; 0; 1] = Ok KRtp. Proof. reflexivity. Qed.
Example demux_rtcp : classify [128; 200; 0; 1] = Ok KRtcp. Proof. reflexivity. Qed.
Example demux_dtls : classify [22; 254] = Ok KDtls. Proof. reflexivity. Qed.
Example demux_stun_short : classify [0; 1; 0; 0] = Err. Proof. reflexivity. Qed.

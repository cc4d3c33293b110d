(** C21: reading and writing RTCP. *)
From Verif Require Import Base BaseFacts TwccModel TwccSpec TwccProofs RtcpModel RtcpSpec RtcpNoPanic RtcpProofs RtcpRound.

(** ** Writing several packets one after the other *)
Fixpoint write_all (ps : list rtcp) : res (list Z) :=
  match ps with
  | [] => Ok []
  | p :: ps' => do (bs, _) <- write p ; do r <- write_all ps' ; Ok (bs ++ r)
  end.

Lemma read_packets_not_err : forall f b, read_packets f b <> Err.
Proof.
  assert (forall (l : list Z) i, idx l i <> Err) as NI.
  { intros l i. unfold idx. destruct (i <? 0); [discriminate|]. destruct (nth_error _ _); discriminate. }
  assert (forall (l : list Z) n, upto l n <> Err) as NU by (intros l n; unfold upto; destruct (_ || _); discriminate).
  assert (forall (l : list Z) n, from l n <> Err) as NF by (intros l n; unfold from; destruct (_ || _); discriminate).
  induction f as [|f IH]; intro b; cbn [read_packets]; [discriminate|].
  destruct b as [|b0 bt]; [discriminate|]. destruct (hdr_parse _) as [[[ty fmt] w]| |]; try discriminate.
  destruct (_ <? _); [discriminate|].
  match goal with |- bind ?x _ <> _ => assert (x <> Err) as Nx by (destruct (0 <? _); [apply NI|discriminate]); destruct x as [pad| |]; [|congruence|discriminate] end.
  cbn [bind]. destruct (_ <? pad); [discriminate|].
  match goal with |- bind ?x _ <> _ => assert (x <> Err) as Nu by apply NU; destruct x as [u| |]; [|congruence|discriminate] end.
  cbn [bind].
  match goal with |- bind ?x _ <> _ => assert (x <> Err) as Nf by apply NF; destruct x as [rest| |]; [|congruence|discriminate] end.
  cbn [bind]. specialize (IH rest). destruct (parse u); try assumption; [|discriminate].
  destruct (read_packets f rest); cbn [bind]; congruence.
Qed.

Lemma read_packets_mono : forall f f' b l, read_packets f b = Ok l -> (f <= f')%nat -> read_packets f' b = Ok l.
Proof.
  induction f as [|f IH]; intros f' b l H Hf; [discriminate|]. destruct f' as [|f']; [lia|]. cbn [read_packets] in *.
  destruct b as [|b0 bt]; [assumption|]. destruct (hdr_parse _) as [[[ty fmt] w]| |]; try assumption.
  destruct (_ <? _); [assumption|].
  match goal with |- bind ?x _ = _ => destruct x as [pad| |]; try discriminate end. cbn [bind] in *.
  destruct (_ <? pad); [assumption|].
  match goal with |- bind ?x _ = _ => destruct x as [u| |]; try discriminate end. cbn [bind] in *.
  match goal with |- bind ?x _ = _ => destruct x as [rest| |]; try discriminate end. cbn [bind] in *.
  destruct (parse u); try assumption.
  - destruct (read_packets f rest) eqn:E; try discriminate. rewrite (IH _ _ _ E) by lia. assumption.
  - apply IH; [assumption|lia].
Qed.

(** C21. No sequence of bytes makes the RTCP reader panic: it always returns a
    list of packets. *)
Theorem C21_no_panic : forall b, bytes_ok b -> exists l, read_packet b = Ok l.
Proof.
  intros b Hb. pose proof (read_packets_np (S (length b)) b Hb ltac:(lia)) as N.
  pose proof (read_packets_not_err (S (length b)) b) as E. unfold read_packet.
  destruct (read_packets _ b); [eauto|congruence|exfalso; apply N; reflexivity].
Qed.

(** C21. Packets written one after the other are read back, in order and
    field by field, whatever bytes follow them. *)
Theorem C21_roundtrip : forall ps rest, Forall carried ps -> bytes_ok rest ->
  exists bs l, write_all ps = Ok bs /\ read_packet rest = Ok l /\
               read_packet (bs ++ rest) = Ok (map as_read ps ++ l).
Proof.
  intros ps rest F Hr. destruct (C21_no_panic rest Hr) as [l El].
  assert (exists bs, write_all ps = Ok bs /\ (length ps <= length bs)%nat /\
     forall f, (S (length rest) <= f)%nat -> read_packets (length ps + f) (bs ++ rest) = Ok (map as_read ps ++ l)) as (bs & Ew & Ln & Er).
  { induction F as [|p ps Hp F IH]; cbn [write_all map app length].
    - exists []. split; [reflexivity|]. split; [cbn; lia|]. intros f Hf. cbn [app Nat.add]. eapply read_packets_mono; [exact El|lia].
    - destruct IH as (bs & -> & Ln & IH). destruct (write_shape p Hp) as (b1 & -> & Sh). cbn [bind].
      exists (b1 ++ bs). split; [reflexivity|]. pose proof (shape_len _ _ _ Sh) as L. pose proof (words_pos p).
      split; [rewrite app_length; unfold zlen in L; lia|]. intros f Hf. rewrite <- app_assoc. cbn [Nat.add].
      rewrite (shape_read _ _ _ _ _ Sh) by (destruct Hp; lia). rewrite IH by assumption. reflexivity. }
  exists bs, l. split; [assumption|]. split; [assumption|]. unfold read_packet.
  apply (read_packets_mono (length ps + (S (length rest)))); [apply Er; lia|]. rewrite app_length. lia.
Qed.

(** In particular nothing is added or lost when nothing follows. *)
Theorem C21_roundtrip_exact : forall ps, Forall carried ps ->
  exists bs, write_all ps = Ok bs /\ read_packet bs = Ok (map as_read ps).
Proof.
  intros ps F. destruct (C21_roundtrip ps [] F (Forall_nil _)) as (bs & l & H1 & H2 & H3).
  exists bs. split; [assumption|]. rewrite app_nil_r in H3. rewrite H3. cbn in H2. injection H2 as <-. rewrite app_nil_r. reflexivity.
Qed.

(** What survives unchanged: everything except REMB rates and opaque payloads
    that are no multiple of four. *)
Theorem C21_exact_unless : forall p,
  match p with
  | Remb _ b _ => 1 <= b < 262144
  | App _ _ pl => zlen pl mod 4 = 0
  | _ => True
  end -> as_read p = p.
Proof.
  intros p H. destruct p; try reflexivity; cbn [as_read].
  - f_equal. unfold remb_rate. assert (Z.log2 bitrate < 18) by (apply Z.log2_lt_pow2; [lia|]; change (2 ^ 18) with 262144; lia).
    replace (Z.max 0 (Z.log2 bitrate - 17)) with 0 by lia. change (2 ^ 0) with 1. rewrite Z.div_1_r. lia.
  - replace ((- zlen payload) mod 4) with 0 by dlia. cbn. rewrite app_nil_r. reflexivity.
Qed.
(** A REMB rate loses less than one part in 2^17, and is never rounded up. *)
Theorem C21_remb_precision : forall b, 1 <= b -> remb_rate b <= b /\ (b - remb_rate b) * 2 ^ 17 <= b.
Proof.
  intros b Hb. unfold remb_rate. set (e := Z.max 0 (Z.log2 b - 17)). cbv zeta.
  destruct (Z.log2_spec b ltac:(lia)) as [L1 L2]. assert (0 < 2 ^ e) as P by (apply Z.pow_pos_nonneg; lia).
  pose proof (Z.div_mod b (2 ^ e) ltac:(lia)) as D. pose proof (Z.mod_pos_bound b (2 ^ e) P) as M.
  split; [lia|]. destruct (Z.le_ge_cases (Z.log2 b) 17).
  - assert (e = 0) as E by lia. rewrite E in *. change (2 ^ 0) with 1 in *. rewrite Z.div_1_r. lia.
  - assert (2 ^ e * 2 ^ 17 = 2 ^ Z.log2 b) as E by (rewrite <- Z.pow_add_r by lia; f_equal; lia).
    assert (b - b / 2 ^ e * 2 ^ e = b mod 2 ^ e) as -> by lia.
    apply Z.le_trans with (2 ^ e * 2 ^ 17); [|lia]. apply Z.mul_le_mono_nonneg_r; [apply Z.pow_nonneg; lia|lia].
Qed.

(** ** Lengths *)
Lemma chunks_write_ok cs : Forall (fun c => match c with
      | Run _ n => n <= 8192 | VSingle v f => f = 14 /\ v <= 16384 | VDouble v f => f = 7 /\ v <= 16384 end) cs ->
  exists b, chunks_write cs = Ok b /\ zlen b = 2 * zlen cs.
Proof.
  induction 1 as [|c cs H F IH]; cbn [chunks_write]; [exists []; auto|].
  destruct IH as (b & -> & L). destruct c as [s n|v f|v f]; cbn [chunk_write].
  - destruct (n <=? 8192) eqn:E; [|lia]. cbn [bind]. eexists; split; [reflexivity|]. rewrite zlen_app, zlen_cons, L. change (zlen (be16 (Z.lor (status_u s * 8192) n))) with 2. lia.
  - destruct H as [-> H]. destruct (v <=? 16384) eqn:E; [|lia]. cbn [Z.eqb Pos.eqb andb bind]. eexists; split; [reflexivity|]. rewrite zlen_app, zlen_cons, L. change (zlen (be16 (Z.lor 32768 v))) with 2. lia.
  - destruct H as [-> H]. destruct (v <=? 16384) eqn:E; [|lia]. cbn [Z.eqb Pos.eqb andb bind]. eexists; split; [reflexivity|]. rewrite zlen_app, zlen_cons, L. change (zlen (be16 (Z.lor (Z.lor 32768 16384) v))) with 2. lia.
Qed.
Lemma twcc_write_len t b : chunks_write (t_chunks t) = Ok b -> zlen b = 2 * zlen (t_chunks t) ->
  exists bs, twcc_write t = Ok (bs, 4 * twcc_words t) /\ zlen bs = 4 * twcc_words t.
Proof.
  intros E L. unfold twcc_write. rewrite E. cbn [bind]. 
  set (body := be32 (t_sender t) ++ _).
  assert (zlen body = 16 + (zlen (t_chunks t) * 2 + deltas_len (t_deltas t))) as Lb.
  { unfold body. rewrite !zlen_app, L, deltas_len_eq. change (zlen (be32 (t_sender t))) with 4. change (zlen (be32 (t_ssrc t))) with 4.
    change (zlen (be16 (t_base t))) with 2. change (zlen (be16 (t_count t))) with 2. change (zlen (be24 (t_ref t))) with 3. change (zlen [t_fb t]) with 1. lia. }
  assert (twcc_words t = 5 + (zlen (t_chunks t) * 2 + deltas_len (t_deltas t) + 3) / 4) as W.
  { unfold twcc_words, pad4. set (n := zlen (t_chunks t) * 2 + deltas_len (t_deltas t)). clearbody n. cbv zeta.
    destruct (4 - n mod 4 <? 4) eqn:E2; dlia. }
  set (w := twcc_words t) in *. clearbody w body. rewrite Lb. set (n := zlen (t_chunks t) * 2 + deltas_len (t_deltas t)) in *. clearbody n.
  destruct (4 - (4 + (16 + n)) mod 4 <? 4) eqn:E1; eexists; (split; [f_equal; f_equal; clear -E1 W; dlia|]).
  - rewrite !zlen_app, zlen_rep, Lb by (clear -E1; dlia).
    change (zlen [Z.lor (Z.lor 128 15) 32; 205]) with 2. change (zlen (be16 (w - 1))) with 2.
    change (zlen [4 - (4 + (16 + n)) mod 4]) with 1. clear -E1 W. dlia.
  - rewrite !zlen_app, Lb. change (zlen [Z.lor 128 15; 205]) with 2. change (zlen (be16 (w - 1))) with 2. clear -E1 W. dlia.
Qed.
Lemma write_len p : lists_ok p -> exists bs, write p = Ok (bs, 4 * words p) /\ zlen bs = 4 * words p.
Proof.
  intro H. destruct p as [i r|s r|s b|r|r|a s r|a s|a r|t|a b s|a m pl]; cbn [write lists_ok] in *.
  - destruct (hdr_count_ok r 200 (words (Sr i r)) H) as [-> Hr]. cbn [bind]. eexists; split; [f_equal; f_equal; lia|].
    rewrite !zlen_app, rr_flat. change (zlen (hdr (zlen r) 200 (words (Sr i r)))) with 4. change (zlen (sinfo_write i)) with 24. cbn [words]. lia.
  - destruct (hdr_count_ok r 201 (words (Rr s r)) H) as [-> Hr]. cbn [bind]. eexists; split; [f_equal; f_equal; lia|].
    rewrite !zlen_app, rr_flat. change (zlen (hdr (zlen r) 201 (words (Rr s r)))) with 4. change (zlen (be32 s)) with 4. cbn [words]. lia.
  - eexists; split; [f_equal; f_equal; cbn [words]; rewrite xr_sum; lia|]. rewrite !zlen_app.
    assert (zlen (flat_map xblock_write b) = sumz (map xblock_len b)) as ->.
    { clear. induction b as [|x b IH]; [reflexivity|]. unfold sumz in *. cbn [flat_map map fold_right]. rewrite zlen_app, IH. f_equal.
      destruct x as [t|l]; [reflexivity|]. cbn [xblock_write xblock_len]. rewrite !zlen_app.
      rewrite (flat_map_len dlrr_write 12) by (apply Forall_forall; intros; reflexivity).
      change (zlen [5; 0]) with 2. change (zlen (be16 (zlen l * 3))) with 2. lia. }
    rewrite xr_sum. change (zlen (hdr 0 207 (words (Xr s b)))) with 4. change (zlen (be32 s)) with 4. cbn [words]. lia.
  - destruct (hdr_count_ok r 202 (words (Sdes r)) H) as [-> Hr]. cbn [bind]. eexists; split.
    + f_equal. f_equal. cbn [words]. rewrite (sumz_map_mul _ sdes_size); [lia|]. apply Forall_forall. intros; apply sdes_size_eq.
    + rewrite zlen_app, sdes_flat. change (zlen (hdr (zlen r) 202 (words (Sdes r)))) with 4. cbn [words]. lia.
  - destruct (hdr_count_ok r 203 (words (Bye r)) H) as [-> Hr]. cbn [bind]. eexists; split; [f_equal; f_equal; lia|].
    rewrite !zlen_app, (flat_map_len be32 4) by (apply Forall_forall; reflexivity). change (zlen (hdr (zlen r) 203 (words (Bye r)))) with 4. cbn [words]. lia.
  - eexists; split; [f_equal; f_equal; lia|]. rewrite !zlen_app, (flat_map_len nack_write 4) by (apply Forall_forall; reflexivity).
    change (zlen (hdr 1 205 (words (Nack a s r)))) with 4. change (zlen (be32 a)) with 4. change (zlen (be32 s)) with 4. cbn [words]. lia.
  - eexists; split; reflexivity.
  - eexists; split; [f_equal; f_equal; cbn [words]; lia|]. rewrite !zlen_app, (flat_map_len fir_write 8) by (apply Forall_forall; reflexivity).
    set (media := match r with [] => 0 | e :: _ => fe_ssrc e end).
    change (zlen (hdr 4 206 (words (Fir a r)))) with 4. change (zlen (be32 a)) with 4. change (zlen (be32 media)) with 4. cbn [words]. lia.
  - destruct (chunks_write_ok _ H) as (b & E & L). destruct (twcc_write_len t b E L) as (bs & E1 & E2). exists bs. auto.
  - eexists; split; [f_equal; f_equal; cbn [words]; change (16 / 4) with 4; lia|]. unfold remb_write.
    destruct (remb_scale _ _ _) as [m e]. rewrite !zlen_app, (flat_map_len be32 4) by (apply Forall_forall; reflexivity).
    change (zlen (hdr 15 206 (words (Remb a b s)))) with 4. change (zlen (be32 a)) with 4.
    change (zlen [zlen s mod 256; Z.lor (e * 4 mod 256) (m / 65536 mod 256); m / 256 mod 256; m mod 256]) with 4.
    change (zlen [0;0;0;0]) with 4. change (zlen [82;69;77;66]) with 4. cbn [words]. change (16 / 4) with 4. lia.
  - pose proof (zlen_nonneg pl). eexists; split; [f_equal; f_equal; cbn [words]; dlia|].
    rewrite !zlen_app, zlen_rep by dlia.
    change (zlen (hdr 15 206 (words (App a m pl)))) with 4. change (zlen (be32 a)) with 4. change (zlen (be32 m)) with 4. cbn [words]. dlia.
Qed.

(** C21. For every packet whose report lists respect their capacity, writing
    succeeds and fills exactly the announced number of 32-bit words, which is
    also the count it returns. *)
Theorem C21_write_length : forall p, lists_ok p ->
  exists bs, write p = Ok (bs, 4 * words p) /\ zlen bs = 4 * words p.
Proof. exact write_len. Qed.

Lemma bytes_ok_dec b : forallb byteb b = true -> bytes_ok b.
Proof.
  intro H. apply Forall_forall. intros x Hx. rewrite forallb_forall in H. specialize (H x Hx).
  unfold byteb, byte_ok in *. lia.
Qed.

(** ** The conditions matter *)
(** a REMB of 0 bit/s is read back as 8.4 Mbit/s *)
Theorem C21_remb_zero_refuted : exists bs,
  write_all [Remb 1 0 [7]] = Ok bs /\ read_packet bs = Ok [Remb 1 8388608 [7]].
Proof. eexists. split; [vm_compute; reflexivity|]. vm_compute. reflexivity. Qed.
(** goodbyes and NACKs without entries are not read back *)
Theorem C21_empty_refuted : exists bs,
  write_all [Bye []; Nack 1 2 []; Pli 1 2] = Ok bs /\ read_packet bs = Ok [Pli 1 2].
Proof. eexists. split; [vm_compute; reflexivity|]. vm_compute. reflexivity. Qed.
(** a description longer than 255 bytes is written with a wrapped length and
    makes the chunk behind it unreadable *)
Theorem C21_long_sdes_refuted : exists bs,
  write_all [Sdes [SDES 1 [(1, rep 65 258)]; SDES 2 [(1, [66])]]] = Ok bs /\
  read_packet bs <> Ok [Sdes [SDES 1 [(1, rep 65 258)]; SDES 2 [(1, [66])]]].
Proof. eexists. split; [vm_compute; reflexivity|]. vm_compute. discriminate. Qed.
(** a peer's description that is not UTF-8 garbles the chunks after it: the
    second chunk is read as source 0x41414100 *)
Theorem C21_invalid_utf8_refuted : exists b l, bytes_ok b /\
  b = hdr 2 202 6 ++ sdes_write (SDES 1 [(1, [255; 65; 65; 65; 65])]) ++ sdes_write (SDES 2 [(1, [66])]) /\
  read_packet b = Ok [Sdes l] /\ map sd_ssrc l <> [1; 2].
Proof.
  exists (hdr 2 202 6 ++ sdes_write (SDES 1 [(1, [255; 65; 65; 65; 65])]) ++ sdes_write (SDES 2 [(1, [66])])). eexists.
  split. { apply bytes_ok_dec. vm_compute. reflexivity. }
  split; [reflexivity|]. split; [vm_compute; reflexivity|]. vm_compute. discriminate.
Qed.

(** ** A compound packet with every kind of feedback *)
Definition ex_rr := RR 10 3 70000 65537 5 6 7.
Definition ex_twcc := Twcc 1 2 65530 9 100 3 [Run SmallDelta 2; VDouble 6144 7] [Small 0; Small 255; Small 4; Large (-3)].
Definition ex_compound : list rtcp :=
  [Sr (SI 1 123456789012 90000 5 600) [ex_rr; ex_rr]; Rr 1 [ex_rr]; Sdes [SDES 9 [(1, [97; 98; 99]); (12, [195; 165])]];
   Nack 1 2 [NE 17 3; NE 40 0]; Pli 1 2; Fir 1 [FE 2 7]; Tw ex_twcc; Remb 1 1234567 [2; 3]; App 1 2 [9; 8; 7];
   Xr 1 [Rrtr 42; Dlrr [DL 1 2 3; DL 4 5 6]]; Bye [1; 2]].
Example ex_compound_carried : Forall carried ex_compound.
Proof.
  assert (forall x, 0 <= x < 256 -> u8 x) as U8_ by auto. assert (forall x, 0 <= x < 65536 -> u16 x) as U16_ by auto.
  assert (forall x, 0 <= x < 4294967296 -> u32 x) as U32_ by auto. assert (forall x, 0 <= x < 18446744073709551616 -> u64 x) as U64_ by auto.
  assert (rr_ok ex_rr) as R by (unfold rr_ok, u32, u8, U32; cbn [ex_rr r_ssrc r_frac r_lost r_max r_jit r_lsr r_dlsr]; lia).
  unfold ex_compound. repeat (apply Forall_cons; [split; [vm_compute; discriminate|]|]); try apply Forall_nil.
  - split; [unfold sinfo_ok, u32, u64, U32, U64; cbn [s_ssrc s_ntp s_rtp s_pkts s_octs]; lia|]. split; [unfold upto31; cbn; lia|]. repeat (apply Forall_cons; [exact R|]). apply Forall_nil.
  - split; [apply U32_; lia|]. split; [unfold upto31; cbn; lia|]. repeat (apply Forall_cons; [exact R|]). apply Forall_nil.
  - split; [unfold upto31; cbn; lia|]. apply Forall_cons; [|apply Forall_nil]. split; [apply U32_; cbn; lia|]. split; [unfold upto31; cbn; lia|].
    apply Forall_cons; [|apply Forall_cons; [|apply Forall_nil]]; (split; [cbn; lia|]; split; [apply bytes_ok_dec; reflexivity|split; [reflexivity|cbn; lia]]).
  - split; [apply U32_; lia|]. split; [apply U32_; lia|]. split; [discriminate|]. split; [unfold upto31; cbn; lia|].
    repeat (apply Forall_cons; [split; apply U16_; cbn; lia|]). apply Forall_nil.
  - split; apply U32_; lia.
  - split; [apply U32_; lia|]. split; [discriminate|]. split; [unfold upto31; cbn; lia|].
    apply Forall_cons; [|apply Forall_nil]. split; [apply U32_|apply U8_]; cbn; lia.
  - split.
    + split; [repeat split; cbn; unfold U32, U16; lia|].
      split; [repeat (apply Forall_cons; [cbn; lia|]); apply Forall_nil|].
      split; [repeat (apply Forall_cons; [cbn; lia|]); apply Forall_nil|].
      split; [cbn; lia|]. split; [|reflexivity].
      intros cs c E. destruct cs as [|c1 [|c2 [|c3 cs]]]; cbn in E; try discriminate.
      injection E as <- _. cbn; lia.
    + intros l n r E Hn. destruct l as [|c1 [|c2 [|c3 cs]]]; cbn in E; discriminate.
  - split; [apply U32_; lia|]. split; [unfold REMB_MAX; cbn; lia|]. split; [repeat (apply Forall_cons; [apply U32_; lia|]); apply Forall_nil|cbn; lia].
  - split; [apply U32_; lia|]. split; [apply U32_; lia|]. split; [apply bytes_ok_dec; reflexivity|]. intros [H _]. discriminate.
  - split; [apply U32_; lia|]. apply Forall_cons; [apply U64_; lia|]. apply Forall_cons; [|apply Forall_nil].
    split; [|cbn; unfold U16; lia]. repeat (apply Forall_cons; [unfold dlrr_ok, u32, U32; cbn [d_ssrc d_last d_delay]; lia|]). apply Forall_nil.
  - split; [discriminate|]. split; [unfold upto31; cbn; lia|]. repeat (apply Forall_cons; [apply U32_; lia|]). apply Forall_nil.
Qed.
Example ex_compound_reads : exists bs, write_all ex_compound = Ok bs /\ zlen bs = 316 /\
  read_packet (bs ++ [200; 1; 2]) = Ok (map as_read ex_compound).
Proof. eexists. split; [vm_compute; reflexivity|]. split; vm_compute; reflexivity. Qed.

Print Assumptions C21_no_panic.
Print Assumptions C21_roundtrip.
Print Assumptions C21_write_length.

(** One RTCP packet: what [write] produces and what [read_packet] makes of it. *)
From Verif Require Import Base BaseFacts TwccModel TwccSpec TwccProofs RtcpModel RtcpSpec RtcpNoPanic RtcpProofs.

(** [bs] is a complete packet which reads back as [p], [w] words long. *)
Definition shape (bs : list Z) (w : Z) (p : rtcp) : Prop :=
  exists fmt ty pad body, 0 <= fmt < 32 /\ 200 <= ty <= 207 /\ fmt_ok ty fmt /\ 0 <= pad < 4 /\
    4 + zlen body + pad = 4 * w /\ sub_parse ty fmt body = Ok p /\
    bs = [first fmt (negb (pad =? 0)); ty] ++ be16 (w - 1) ++ body ++ padding pad.

Lemma shape_len bs w p : shape bs w p -> zlen bs = 4 * w.
Proof.
  intros (fmt & ty & pad & body & _ & _ & _ & Hp & Hl & _ & ->). rewrite !zlen_app.
  change (zlen [first fmt (negb (pad =? 0)); ty]) with 2. change (zlen (be16 (w - 1))) with 2.
  assert (zlen (padding pad) = pad) as ->; [|lia].
  unfold padding. destruct (pad =? 0) eqn:E; [change (zlen (@nil Z)) with 0; lia|].
  rewrite zlen_app, zlen_rep by lia. change (zlen [pad]) with 1. lia.
Qed.
Lemma shape_read f bs w p rest : shape bs w p -> 1 <= w <= U16 ->
  read_packets (S f) (bs ++ rest) = (do r <- read_packets f rest ; Ok (p :: r)).
Proof.
  intros (fmt & ty & pad & body & H1 & H2 & H3 & H4 & H5 & H6 & ->) Hw. apply read_one; assumption.
Qed.
(** the unpadded packets *)
Lemma shape_mk fmt ty w body p : 0 <= fmt < 32 -> 200 <= ty <= 207 -> fmt_ok ty fmt ->
  4 + zlen body = 4 * w -> sub_parse ty fmt body = Ok p -> shape (hdr fmt ty w ++ body) w p.
Proof.
  intros H1 H2 H3 H4 H5. exists fmt, ty, 0, body. repeat (split; [first [assumption|lia]|]).
  unfold hdr, padding, first. cbn [Z.eqb negb]. destruct (b0_facts fmt H1) as (-> & _).
  rewrite app_nil_r, <- app_assoc. reflexivity.
Qed.
Lemma hdr_count_ok {A} (l : list A) ty w : upto31 l -> hdr_count (zlen l) ty w = Ok (hdr (zlen l) ty w) /\ 0 <= zlen l < 32.
Proof.
  intro H. unfold upto31 in H. assert (0 <= zlen l < 32) by (unfold zlen; lia). split; [|assumption].
  unfold hdr_count. rewrite Z.mod_small by lia. destruct (zlen l <=? 31) eqn:E; [reflexivity|lia].
Qed.
Lemma no_fmt ty fmt : ty <> 205 -> ty <> 206 -> fmt_ok ty fmt.
Proof. intros; split; intro; contradiction. Qed.
Lemma rr_flat l : zlen (flat_map rr_write l) = zlen l * 24.
Proof. apply flat_map_len. apply Forall_forall. reflexivity. Qed.
Lemma sumz_map_mul {A} (f g : A -> Z) l : Forall (fun a => f a = g a * 4) l -> sumz (map f l) = sumz (map g l) * 4.
Proof.
  induction 1 as [|a l H F IH]; [reflexivity|]. unfold sumz in *. cbn [map fold_right]. rewrite IH, H. lia.
Qed.
Lemma sdes_flat l : zlen (flat_map sdes_write l) = sumz (map sdes_size l) * 4.
Proof.
  induction l as [|s l IH]; [reflexivity|]. unfold sumz in *. cbn [flat_map map fold_right]. rewrite zlen_app, sdes_size_eq, IH. lia.
Qed.
Lemma xblock_len4 b : xblock_len b = xblock_len b / 4 * 4.
Proof. destruct b as [t|l]; [reflexivity|]. cbn [xblock_len]. dlia. Qed.
Lemma xr_flat l : Forall xblock_ok l -> zlen (flat_map xblock_write l) = sumz (map xblock_len l).
Proof.
  induction 1 as [|b l H F IH]; [reflexivity|]. unfold sumz in *. cbn [flat_map map fold_right]. rewrite zlen_app, xblock_len_eq, IH by assumption. lia.
Qed.
Lemma xr_sum l : sumz (map xblock_len l) = sumz (map (fun b => xblock_len b / 4) l) * 4.
Proof. apply sumz_map_mul. apply Forall_forall. intros; apply xblock_len4. Qed.

Lemma sdes_size_le_len l : (length l <= length (flat_map sdes_write l))%nat.
Proof.
  induction l as [|s l IH]; [cbn; lia|]. cbn [flat_map length]. rewrite app_length.
  pose proof (sdes_size_eq s). pose proof (sdes_size_pos s). unfold zlen in *. lia.
Qed.
Lemma xblock_le_len l : Forall xblock_ok l -> (length l <= length (flat_map xblock_write l))%nat.
Proof.
  induction 1 as [|b l H F IH]; [cbn; lia|]. cbn [flat_map length]. rewrite app_length.
  pose proof (xblock_len_eq b H). pose proof (xblock_len_pos b). unfold zlen in *. lia.
Qed.
Lemma nonempty_zlen {A} (l : list A) : l <> [] -> 1 <= zlen l.
Proof. destruct l as [|x l]; [congruence|]. intros _. rewrite zlen_cons. pose proof (zlen_nonneg l). lia. Qed.

Lemma write_shape p : carried p -> exists bs, write p = Ok (bs, 4 * words p) /\ shape bs (words p) (as_read p).
Proof.
  intros [Hw H]. destruct p as [i r|s r|s b|r|r|a s r|a s|a r|t|a b s|a m pl]; cbn [write as_read].
  - destruct H as (Hi & H31 & F). destruct (hdr_count_ok r 200 (words (Sr i r)) H31) as [-> Hr]. cbn [bind].
    eexists. split; [f_equal; f_equal; lia|]. apply shape_mk; [assumption|lia|apply no_fmt; lia| |].
    + rewrite zlen_app, rr_flat. change (zlen (sinfo_write i)) with 24. cbn [words]. lia.
    + unfold sub_parse. cbn [Z.eqb Pos.eqb]. unfold sr_parse. rewrite sinfo_round by assumption. cbn [bind].
      assert (from (sinfo_write i ++ flat_map rr_write r) 24 = Ok (flat_map rr_write r)) as -> by exact (from_app (sinfo_write i) _).
      cbn [bind]. rewrite rrs_round by assumption. reflexivity.
  - destruct H as (Hs & H31 & F). destruct (hdr_count_ok r 201 (words (Rr s r)) H31) as [-> Hr]. cbn [bind].
    eexists. split; [f_equal; f_equal; lia|]. apply shape_mk; [assumption|lia|apply no_fmt; lia| |].
    + rewrite zlen_app, rr_flat. change (zlen (be32 s)) with 4. cbn [words]. lia.
    + unfold sub_parse. cbn [Z.eqb Pos.eqb]. unfold rrp_parse. rewrite zlen_app. change (zlen (be32 s)) with 4.
      pose proof (zlen_nonneg (flat_map rr_write r)). destruct (_ <? 4) eqn:E; [lia|]. rewrite rdu32_hd by assumption. cbn [bind].
      assert (from (be32 s ++ flat_map rr_write r) 4 = Ok (flat_map rr_write r)) as -> by exact (from_app (be32 s) _).
      cbn [bind]. rewrite rrs_round by assumption. reflexivity.
  - destruct H as (Hs & F). exists (hdr 0 207 (words (Xr s b)) ++ be32 s ++ flat_map xblock_write b).
    split; [f_equal; f_equal; cbn [words]; rewrite xr_sum; lia|].
    apply shape_mk; [lia|lia|apply no_fmt; lia| |].
    + rewrite zlen_app, xr_flat, xr_sum by assumption. change (zlen (be32 s)) with 4. cbn [words]. lia.
    + unfold sub_parse. cbn [Z.eqb Pos.eqb]. unfold xr_parse. rewrite zlen_app. change (zlen (be32 s)) with 4.
      pose proof (zlen_nonneg (flat_map xblock_write b)). destruct (_ <? 4) eqn:E; [lia|]. rewrite rdu32_hd by assumption. cbn [bind].
      assert (from (be32 s ++ flat_map xblock_write b) 4 = Ok (flat_map xblock_write b)) as -> by exact (from_app (be32 s) _).
      cbn [bind]. rewrite xblocks_round; [reflexivity|assumption|]. pose proof (xblock_le_len b F). lia.
  - destruct H as (H31 & F). destruct (hdr_count_ok r 202 (words (Sdes r)) H31) as [-> Hr]. cbn [bind].
    exists (hdr (zlen r) 202 (words (Sdes r)) ++ flat_map sdes_write r).
    split. { f_equal. f_equal. cbn [words]. rewrite (sumz_map_mul _ sdes_size); [lia|]. apply Forall_forall. intros; apply sdes_size_eq. }
    apply shape_mk; [assumption|lia|apply no_fmt; lia| |].
    + rewrite sdes_flat. cbn [words]. lia.
    + unfold sub_parse. cbn [Z.eqb Pos.eqb]. rewrite sdess_round; [reflexivity|assumption|lia|].
      pose proof (sdes_size_le_len r). lia.
  - destruct H as (Hne & H31 & F). destruct (hdr_count_ok r 203 (words (Bye r)) H31) as [-> Hr]. cbn [bind].
    eexists. split; [f_equal; f_equal; lia|].
    assert (zlen (flat_map be32 r) = zlen r * 4) as L by (apply flat_map_len; apply Forall_forall; reflexivity).
    apply shape_mk; [assumption|lia|apply no_fmt; lia| |].
    + rewrite L. cbn [words]. lia.
    + unfold sub_parse. cbn [Z.eqb Pos.eqb]. unfold bye_parse. rewrite L. pose proof (nonempty_zlen r Hne).
      destruct (zlen r * 4 <? 4) eqn:E; [lia|]. destruct (zlen r * 4 <? zlen r * 4) eqn:E1; [lia|].
      replace (Z.to_nat (Z.min (zlen r) 31)) with (length r) by (unfold zlen in *; lia).
      rewrite <- (app_nil_r (flat_map be32 r)). rewrite read_n_round; [reflexivity|].
      eapply Forall_impl; [|exact F]. intros x Hx. split; [reflexivity|]. intro q. apply rdu32_hd. exact Hx.
  - destruct H as (Ha & Hs & Hne & H31 & F). eexists. split; [f_equal; f_equal; lia|].
    assert (zlen (flat_map nack_write r) = zlen r * 4) as L by (apply flat_map_len; apply Forall_forall; reflexivity).
    apply shape_mk; [lia|lia|split; intro; lia| |].
    + rewrite !zlen_app, L. change (zlen (be32 a)) with 4. change (zlen (be32 s)) with 4. cbn [words]. lia.
    + unfold sub_parse. cbn [Z.eqb Pos.eqb]. unfold nack_parse. rewrite !zlen_app, L. change (zlen (be32 a)) with 4. change (zlen (be32 s)) with 4.
      pose proof (nonempty_zlen r Hne). destruct (_ <? 12) eqn:E; [lia|]. rewrite rdu32_hd by assumption. cbn [bind].
      assert (rdu32 (be32 a ++ be32 s ++ flat_map nack_write r) 4 = Ok s) as -> by exact (rdu32_be s (be32 a) _ Hs).
      assert (from (be32 a ++ be32 s ++ flat_map nack_write r) 8 = Ok (flat_map nack_write r)) as -> by (rewrite app_assoc; exact (from_app (be32 a ++ be32 s) _)).
      cbn [bind]. rewrite L, Z.div_mul by lia. unfold upto31 in H31.
      replace (Z.to_nat (Z.min (zlen r) 31)) with (length r) by (unfold zlen in *; lia).
      rewrite <- (app_nil_r (flat_map nack_write r)). rewrite read_n_round; [reflexivity|].
      eapply Forall_impl; [|exact F]. intros x [X1 X2]. split; [reflexivity|]. intro q.
      unfold nentry_parse, nack_write. rewrite <- app_assoc, rdu16_hd by assumption. cbn [bind].
      assert (rdu16 (be16 (ne_pid x) ++ be16 (ne_blp x) ++ q) 2 = Ok (ne_blp x)) as -> by exact (rdu16_be _ (be16 (ne_pid x)) q X2).
      destruct x; reflexivity.
  - destruct H as (Ha & Hs). eexists. split; [reflexivity|]. apply shape_mk; [lia|lia|split; intro; lia|reflexivity|].
    unfold sub_parse. cbn [Z.eqb Pos.eqb]. unfold pli_parse. rewrite zlen_app. change (zlen (be32 a) + zlen (be32 s)) with 8.
    cbn [Z.ltb Z.compare Pos.compare Pos.compare_cont]. rewrite rdu32_hd by assumption. cbn [bind].
    assert (rdu32 (be32 a ++ be32 s) 4 = Ok s) as ->; [|reflexivity].
    rewrite <- (app_nil_r (be32 s)) at 1. exact (rdu32_be s (be32 a) [] Hs).
  - destruct H as (Ha & Hne & H31 & F). set (media := match r with [] => 0 | e :: _ => fe_ssrc e end).
    exists (hdr 4 206 (words (Fir a r)) ++ be32 a ++ be32 media ++ flat_map fir_write r). split; [f_equal; f_equal; cbn [words]; lia|].
    assert (zlen (flat_map fir_write r) = zlen r * 8) as L by (apply flat_map_len; apply Forall_forall; reflexivity).
    apply shape_mk; [lia|lia|split; intro; lia| |].
    + rewrite !zlen_app, L. change (zlen (be32 a)) with 4. change (zlen (be32 media)) with 4. cbn [words]. lia.
    + unfold sub_parse. cbn [Z.eqb Pos.eqb]. unfold fir_parse. rewrite !zlen_app, L. change (zlen (be32 a)) with 4. change (zlen (be32 media)) with 4.
      pose proof (nonempty_zlen r Hne). destruct (_ <? 16) eqn:E; [lia|]. rewrite rdu32_hd by assumption. cbn [bind].
      assert (from (be32 a ++ be32 media ++ flat_map fir_write r) 8 = Ok (flat_map fir_write r)) as -> by (rewrite app_assoc; exact (from_app (be32 a ++ be32 media) _)).
      cbn [bind]. rewrite L, Z.div_mul by lia. unfold upto31 in H31.
      replace (Z.to_nat (Z.min (zlen r) 31)) with (length r) by (unfold zlen in *; lia).
      rewrite <- (app_nil_r (flat_map fir_write r)). rewrite read_n_round; [reflexivity|].
      eapply Forall_impl; [|exact F]. intros x [X1 X2]. split; [reflexivity|]. intro q.
      unfold fentry_parse, fir_write. rewrite <- app_assoc, rdu32_hd by assumption. cbn [bind].
      assert (idx (be32 (fe_ssrc x) ++ [fe_seq x; 0; 0; 0] ++ q) 4 = Ok (fe_seq x)) as -> by reflexivity.
      destruct x; reflexivity.
  - destruct H as (Ht & Hl). destruct (twcc_round t Ht Hl) as (body & pad & E1 & E2 & E3 & E4 & E5).
    eexists. split; [exact E1|]. exists 15, 205, pad, body. split; [lia|]. split; [lia|]. split; [split; intro; lia|].
    split; [assumption|]. split; [exact E3|]. split.
    + unfold sub_parse. cbn [Z.eqb Pos.eqb]. rewrite E5. reflexivity.
    + unfold first. destruct (pad =? 0); reflexivity.
  - destruct H as (Ha & Hb & Hs & Hn). destruct (remb_round a b s (words (Remb a b s)) Ha Hb Hs Hn) as (body & -> & L & B & P).
    exists (hdr 15 206 (words (Remb a b s)) ++ body). split; [f_equal; f_equal; cbn [words]; change (16 / 4) with 4; lia|].
    apply shape_mk; [lia|lia|split; intro; lia| |].
    + rewrite L. cbn [words]. change (16 / 4) with 4. lia.
    + unfold sub_parse. cbn [Z.eqb Pos.eqb]. rewrite P. reflexivity.
  - destruct H as (Ha & Hm & Hb & Hn). set (w := words (App a m pl)).
    assert ((zlen pl + 3) / 4 * 4 - zlen pl = (- zlen pl) mod 4) as -> by dlia.
    set (k := (- zlen pl) mod 4). assert (0 <= k < 4) as Hk by (unfold k; dlia).
    assert (w = 3 + (zlen pl + 3) / 4) as Ew by (unfold w; cbn [words]; lia).
    eexists. split. { f_equal. f_equal. rewrite Ew. unfold k. clear. dlia. }
    apply shape_mk; [lia|lia|split; intro; lia| |].
    + rewrite !zlen_app, zlen_rep by lia. change (zlen (be32 a)) with 4. change (zlen (be32 m)) with 4. rewrite Ew. unfold k. clear. dlia.
    + unfold sub_parse. cbn [Z.eqb Pos.eqb]. unfold k. rewrite app_not_remb by assumption. rewrite app_round by assumption. reflexivity.
Qed.

Lemma words_pos p : 1 <= words p.
Proof.
  destruct p as [i r|s r|s b|r|r|a s r|a s|a r|t|a b s|a m pl]; cbn [words].
  1,2,5,6,8: pose proof (zlen_nonneg r); lia.
  - assert (0 <= sumz (map (fun b => xblock_len b / 4) b)); [|lia]. apply sumz_nonneg. apply Forall_forall. intros x Hx.
    apply in_map_iff in Hx. destruct Hx as (y & <- & _). pose proof (xblock_len_pos y). dlia.
  - assert (0 <= sumz (map sdes_size r)); [|lia]. apply sumz_nonneg. apply Forall_forall. intros x Hx.
    apply in_map_iff in Hx. destruct Hx as (y & <- & _). pose proof (sdes_size_pos y). dlia.
  - lia.
  - unfold twcc_words, pad4. pose proof (zlen_nonneg (t_chunks t)).
    assert (0 <= deltas_len (t_deltas t)) by (rewrite <- deltas_len_eq; apply zlen_nonneg). cbv zeta.
    set (n := zlen (t_chunks t) * 2 + deltas_len (t_deltas t)). assert (0 <= n) by (unfold n; lia). clearbody n.
    destruct (_ <? 4); dlia.
  - pose proof (zlen_nonneg s). change (16 / 4) with 4. lia.
  - pose proof (zlen_nonneg pl). dlia.
Qed.

(** RTCP write/read round trips. *)
From Verif Require Import Base BaseFacts Brute TwccModel TwccSpec TwccProofs RtcpModel RtcpSpec RtcpNoPanic.

(** ** Fixed-size records *)
Lemma read_n_round {A} sz (rd : list Z -> res A) (wr : A -> list Z) l : 
  Forall (fun a => zlen (wr a) = sz /\ forall r, rd (wr a ++ r) = Ok a) l ->
  forall r, read_n (length l) sz rd (flat_map wr l ++ r) = Ok l.
Proof.
  induction 1 as [|a l [H1 H2] F IH]; intro r; cbn [length read_n flat_map]; [reflexivity|].
  rewrite <- app_assoc, H2. cbn [bind]. rewrite <- H1 at 1. rewrite from_app. cbn [bind]. rewrite IH. reflexivity.
Qed.
Lemma flat_map_len {A} (wr : A -> list Z) sz l : Forall (fun a => zlen (wr a) = sz) l -> zlen (flat_map wr l) = zlen l * sz.
Proof.
  induction 1 as [|a l H F IH]; cbn [flat_map]; [reflexivity|]. rewrite zlen_app, zlen_cons, H, IH. lia.
Qed.
Lemma bytes_flat_map {A} (wr : A -> list Z) l : (forall a, In a l -> bytes_ok (wr a)) -> bytes_ok (flat_map wr l).
Proof.
  induction l as [|a l IH]; intro H; cbn [flat_map]; [constructor|]. apply bytes_ok_app. split.
  - apply H. left; reflexivity.
  - apply IH. intros; apply H. right; assumption.
Qed.
Lemma rdu32_hd x r : u32 x -> rdu32 (be32 x ++ r) 0 = Ok x.
Proof. intro H. exact (rdu32_be x [] r H). Qed.
Lemma rdu16_hd x r : u16 x -> rdu16 (be16 x ++ r) 0 = Ok x.
Proof. intro H. exact (rdu16_be x [] r H). Qed.
Lemma rdu64_be x p q : u64 x -> rdu64 (p ++ be64 x ++ q) (zlen p) = Ok x.
Proof.
  intro H. unfold u64 in H. unfold rdu64, be64. rewrite <- (app_assoc (be32 (x / 4294967296))).
  rewrite rdu32_be by (unfold U32, U64 in *; dlia). cbn [bind].
  assert (zlen p + 4 = zlen (p ++ be32 (x / 4294967296))) as -> by (rewrite zlen_app; reflexivity).
  rewrite app_assoc. unfold rdu32.
  rewrite (idx_off0 (p ++ be32 (x / 4294967296))), (idx_off (p ++ be32 (x / 4294967296)) _ 1), (idx_off (p ++ be32 (x / 4294967296)) _ 2), (idx_off (p ++ be32 (x / 4294967296)) _ 3) by lia.
  unfold be32. cbn [app]. ridx. f_equal. unfold rd32, U32, U64 in *. dlia.
Qed.

(** ** Header *)
Definition fmt_ok (ty fmt : Z) : Prop :=
  (ty = 205 -> fmt = 1 \/ fmt = 15) /\ (ty = 206 -> fmt = 1 \/ fmt = 2 \/ fmt = 3 \/ fmt = 4 \/ fmt = 15).
Lemma b0_facts : forall fmt, 0 <= fmt < 32 ->
  Z.lor 128 fmt = 128 + fmt /\
  Z.land (128 + fmt) 192 / 64 = 2 /\ Z.land (128 + fmt) 31 = fmt /\ (0 <? Z.land (128 + fmt) 32) = false /\
  Z.land (160 + fmt) 192 / 64 = 2 /\ Z.land (160 + fmt) 31 = fmt /\ (0 <? Z.land (160 + fmt) 32) = true.
Proof.
  intros fmt H.
  assert (((Z.lor 128 fmt =? 128 + fmt) && (Z.land (128 + fmt) 192 / 64 =? 2) && (Z.land (128 + fmt) 31 =? fmt)
     && Bool.eqb (0 <? Z.land (128 + fmt) 32) false && (Z.land (160 + fmt) 192 / 64 =? 2) && (Z.land (160 + fmt) 31 =? fmt)
     && Bool.eqb (0 <? Z.land (160 + fmt) 32) true) = true) as E.
  { revert fmt H. change 32 with (Z.of_nat 32). 
    apply (brute 32 (fun fmt => (Z.lor 128 fmt =? 128 + fmt) && (Z.land (128 + fmt) 192 / 64 =? 2) && (Z.land (128 + fmt) 31 =? fmt)
     && Bool.eqb (0 <? Z.land (128 + fmt) (Z.of_nat 32)) false && (Z.land (160 + fmt) 192 / 64 =? 2) && (Z.land (160 + fmt) 31 =? fmt)
     && Bool.eqb (0 <? Z.land (160 + fmt) (Z.of_nat 32)) true)).
    vm_compute. reflexivity. }
  repeat (apply andb_prop in E; destruct E as [E ?]).
  repeat match goal with H : (_ =? _) = true |- _ => apply Z.eqb_eq in H | H : Bool.eqb _ _ = true |- _ => apply eqb_prop in H end.
  repeat split; assumption.
Qed.
(** first byte with or without the padding bit *)
Definition first (fmt : Z) (pad : bool) : Z := if pad then 160 + fmt else 128 + fmt.

Lemma hdr_parse_round fmt ty w pd r : 0 <= fmt < 32 -> 200 <= ty <= 207 -> fmt_ok ty fmt -> 1 <= w <= U16 ->
  hdr_parse ([first fmt pd; ty] ++ be16 (w - 1) ++ r) = Ok (ty, fmt, w).
Proof.
  intros Hf Ht [F1 F2] Hw. unfold hdr_parse. rewrite !zlen_app. pose proof (zlen_nonneg r).
  change (zlen [first fmt pd; ty]) with 2. change (zlen (be16 (w - 1))) with 2.
  destruct (2 + (2 + zlen r) <? 4) eqn:E; [lia|].
  rewrite (idx_app_l [first fmt pd; ty] _ 0) by (change (zlen [first fmt pd; ty]) with 2; lia).
  rewrite (idx_app_l [first fmt pd; ty] _ 1) by (change (zlen [first fmt pd; ty]) with 2; lia). ridx.
  pose proof (rdu16_be (w - 1) [first fmt pd; ty] r) as R. change (zlen [first fmt pd; ty]) with 2 in R.
  rewrite R by (unfold U16 in *; lia). cbn [bind].
  destruct (b0_facts fmt Hf) as (_ & A1 & A2 & _ & B1 & B2 & _).
  assert (Z.land (first fmt pd) 192 / 64 = 2 /\ Z.land (first fmt pd) 31 = fmt) as [-> ->] by (destruct pd; auto).
  cbn [Z.eqb Pos.eqb negb]. destruct (negb ((200 <=? ty) && (ty <=? 207))) eqn:Q; [lia|].
  destruct ((ty =? 205) && negb ((fmt =? 1) || (fmt =? 15))) eqn:Q1; [exfalso; clear -Q1 F1; lia|].
  destruct ((ty =? 206) && _) eqn:Q2; [exfalso; clear -Q2 F2; lia|].
  f_equal. f_equal. lia.
Qed.

(** the packet-specific parser behind the header *)
Definition sub_parse (ty fmt : Z) (r : list Z) : res rtcp :=
  if ty =? 200 then sr_parse r
  else if ty =? 201 then rrp_parse r
  else if ty =? 202 then do s <- sdess_parse (S (length r)) 0 r ; Ok (Sdes s)
  else if ty =? 203 then bye_parse fmt r
  else if ty =? 204 then Err
  else if ty =? 205 then
    if fmt =? 1 then nack_parse r else do t <- twcc_parse r ; Ok (Tw t)
  else if ty =? 206 then
    if fmt =? 1 then pli_parse r
    else if fmt =? 2 then Err
    else if fmt =? 3 then Err
    else if fmt =? 4 then fir_parse r
    else match remb_parse r with
         | Ok p => Ok p
         | Panic => Panic
         | Err => app_parse r
         end
  else xr_parse r.
Lemma parse_sub fmt ty w pd body : 0 <= fmt < 32 -> 200 <= ty <= 207 -> fmt_ok ty fmt -> 1 <= w <= U16 ->
  parse ([first fmt pd; ty] ++ be16 (w - 1) ++ body) = sub_parse ty fmt body.
Proof.
  intros Hf Ht Hk Hw. unfold parse. rewrite hdr_parse_round by assumption. cbn [bind].
  assert (from ([first fmt pd; ty] ++ be16 (w - 1) ++ body) 4 = Ok body) as ->; [|reflexivity].
  rewrite app_assoc. exact (from_app ([first fmt pd; ty] ++ be16 (w - 1)) body).
Qed.

Lemma read_one f fmt ty w pad body rest p :
  0 <= fmt < 32 -> 200 <= ty <= 207 -> fmt_ok ty fmt -> 1 <= w <= U16 ->
  0 <= pad < 4 -> 4 + zlen body + pad = 4 * w -> sub_parse ty fmt body = Ok p ->
  read_packets (S f) (([first fmt (negb (pad =? 0)); ty] ++ be16 (w - 1) ++ body ++ padding pad) ++ rest)
  = (do r <- read_packets f rest ; Ok (p :: r)).
Proof.
  intros Hf Ht Hk Hw Hp Hl Hs. rewrite <- !app_assoc. cbn [read_packets app].
  set (b0 := first fmt (negb (pad =? 0))).
  change (b0 :: ty :: be16 (w - 1) ++ body ++ padding pad ++ rest) with ([b0; ty] ++ be16 (w - 1) ++ body ++ padding pad ++ rest).
  unfold b0 at 1. rewrite hdr_parse_round by assumption. fold b0.
  assert (zlen (padding pad) = pad) as Lp.
  { unfold padding. destruct (pad =? 0) eqn:E; [cbn; lia|]. rewrite zlen_app, zlen_rep by lia. change (zlen [pad]) with 1. lia. }
  set (pk := [b0; ty] ++ be16 (w - 1) ++ body).
  assert (zlen pk = 4 * w - pad) as Lk.
  { unfold pk. rewrite !zlen_app. change (zlen [b0; ty]) with 2. change (zlen (be16 (w - 1))) with 2. lia. }
  assert ([b0; ty] ++ be16 (w - 1) ++ body ++ padding pad ++ rest = pk ++ padding pad ++ rest) as -> by (unfold pk; rewrite <- !app_assoc; reflexivity).
  rewrite !zlen_app. pose proof (zlen_nonneg rest). destruct (_ <? w * 4) eqn:E; [lia|].
  assert ((if 0 <? Z.land b0 32 then idx (pk ++ padding pad ++ rest) (w * 4 - 1) else Ok 0) = Ok pad) as ->.
  { destruct (b0_facts fmt Hf) as (_ & _ & _ & A & _ & _ & B). unfold b0, first.
    destruct (pad =? 0) eqn:E0; cbn [negb].
    - rewrite A. f_equal. lia.
    - rewrite B. unfold padding. rewrite E0. rewrite <- (app_assoc (rep 0 (pad - 1))). rewrite app_assoc.
      rewrite idx_app_r by (rewrite zlen_app, zlen_rep by lia; lia).
      rewrite zlen_app, zlen_rep by lia. replace (w * 4 - 1 - (zlen pk + (pad - 1))) with 0 by lia. reflexivity. }
  cbn [bind]. destruct (w * 4 <? pad) eqn:E1; [lia|].
  replace (w * 4 - pad) with (zlen pk) by lia. rewrite upto_app. cbn [bind].
  replace (w * 4) with (zlen (pk ++ padding pad)) by (rewrite zlen_app; lia).
  rewrite app_assoc, from_app. cbn [bind]. unfold pk, b0. rewrite parse_sub by assumption. rewrite Hs. reflexivity.
Qed.

(** ** Reports *)
Lemma rr_round r q : rr_ok r -> rr_parse (rr_write r ++ q) = Ok r.
Proof.
  intros (H1 & H2 & H3 & H4 & H5 & H6 & H7). unfold u32, u8 in *. unfold rr_parse.
  assert (zlen (rr_write r) = 24) as L by reflexivity. rewrite zlen_app, L. pose proof (zlen_nonneg q).
  destruct (24 + zlen q <? 24) eqn:E; [lia|].
  unfold rr_write, rdu32, rdu24, be32, be24. cbn [app Z.add Pos.add Pos.succ]. ridx.
  rewrite !rd32_be32 by assumption. rewrite rd24_be24 by assumption. destruct r; reflexivity.
Qed.
Lemma rr_forall l : Forall rr_ok l -> Forall (fun a => zlen (rr_write a) = 24 /\ forall r, rr_parse (rr_write a ++ r) = Ok a) l.
Proof. apply Forall_impl. intros a H. split; [reflexivity|]. intro r. apply rr_round; assumption. Qed.
Lemma rrs_round l : upto31 l -> Forall rr_ok l -> rrs_parse (flat_map rr_write l) = Ok l.
Proof.
  intros H F. unfold rrs_parse. rewrite (flat_map_len rr_write 24) by (eapply Forall_impl; [|exact F]; reflexivity).
  rewrite Z.div_mul by lia. unfold upto31 in H.
  replace (Z.to_nat (Z.min (zlen l) 31)) with (length l) by (unfold zlen; lia).
  rewrite <- (app_nil_r (flat_map rr_write l)). apply read_n_round. apply rr_forall; assumption.
Qed.
Lemma rr_bytes r : rr_ok r -> bytes_ok (rr_write r).
Proof.
  intros (_ & H & _). unfold rr_write. repeat (apply bytes_ok_app; split); auto using be32_ok, be24_ok.
  constructor; [exact H|constructor].
Qed.

Lemma sinfo_round i q : sinfo_ok i -> sinfo_parse (sinfo_write i ++ q) = Ok i.
Proof.
  intros (H1 & H2 & H3 & H4 & H5). unfold sinfo_parse.
  assert (zlen (sinfo_write i) = 24) as L by reflexivity. rewrite zlen_app, L. pose proof (zlen_nonneg q).
  destruct (24 + zlen q <? 24) eqn:E; [lia|].
  unfold sinfo_write. rewrite <- !app_assoc.
  rewrite rdu32_hd by assumption. cbn [bind].
  pose proof (rdu64_be (s_ntp i) (be32 (s_ssrc i)) (be32 (s_rtp i) ++ be32 (s_pkts i) ++ be32 (s_octs i) ++ q) H2) as R.
  change (zlen (be32 (s_ssrc i))) with 4 in R. rewrite R. cbn [bind]. clear R.
  unfold be64, rdu32, be32. cbn [app Z.add Pos.add Pos.succ]. ridx.
  unfold u32 in *. rewrite !rd32_be32 by assumption. destruct i; reflexivity.
Qed.

(** ** SDES *)
Lemma sdes_type_id ty : 1 <= ty <= 8 \/ ty = 12 \/ ty = 13 -> sdes_type ty = ty /\ sdes_type ty <> SD_END.
Proof.
  intro H. unfold sdes_type, SD_END, SD_UNKNOWN.
  destruct ((0 <=? ty) && (ty <=? 8)) eqn:E; [lia|]. destruct ((ty =? 12) || (ty =? 13)) eqn:E2; lia.
Qed.
Definition vals_len (vs : list (Z * list Z)) : Z := sumz (map (fun v => 2 + zlen (snd v)) vs).
Lemma vals_len_eq vs : zlen (flat_map sdes_val_write vs) = vals_len vs.
Proof.
  induction vs as [|v vs IH]; [reflexivity|]. cbn [flat_map]. rewrite zlen_app, IH.
  unfold vals_len, sumz. cbn [map fold_right]. unfold sdes_val_write. rewrite zlen_app. change (zlen [fst v; zlen (snd v) mod 256]) with 2.
  lia.
Qed.

Lemma sdes_vals_round : forall vs f n abs k rest, Forall sdes_val_ok vs -> bytes_ok rest ->
  n + zlen vs <= 31 -> 0 <= abs -> 0 <= k < 4 -> (abs + vals_len vs + 1 + k) mod 4 = 0 ->
  (length vs < f)%nat ->
  sdes_vals_parse f n abs (flat_map sdes_val_write vs ++ SD_END :: rep SD_END k ++ rest) = Ok vs.
Proof.
  induction vs as [|[ty v] vs IH]; intros f n abs k rest F Hr Hn Ha Hk Hm Hf; destruct f as [|f]; try (cbn in Hf; lia);
    cbn [sdes_vals_parse].
  - destruct (n =? 31); [reflexivity|]. cbn [flat_map app].
    destruct (match rep SD_END k ++ rest with [] => SD_END =? SD_END | _ => false end) eqn:E1.
    + destruct (rep SD_END k ++ rest); [reflexivity|discriminate].
    + assert (rep SD_END k ++ rest <> []) as N by (destruct (rep SD_END k ++ rest); [discriminate|discriminate]).
      replace (match SD_END :: rep SD_END k ++ rest with [z] => z =? SD_END | _ => false end) with false
        by (destruct (rep SD_END k ++ rest); [congruence|reflexivity]).
      rewrite zlen_cons. assert (1 <= zlen (rep SD_END k ++ rest)) as L.
      { destruct (rep SD_END k ++ rest); [congruence|]. rewrite zlen_cons. pose proof (zlen_nonneg l). lia. }
      destruct (_ <? 2) eqn:E2; [lia|]. ridx. change (sdes_type SD_END =? SD_END) with true. cbv iota zeta.
      rewrite zlen_app, zlen_rep by lia. pose proof (zlen_nonneg rest).
      unfold vals_len in Hm. cbn [map sumz fold_right] in Hm.
      destruct ((4 - abs mod 4 <? 4) && _) eqn:E3; [exfalso; clear -E3 Hm Hk H Ha; dlia|reflexivity].
  - pose proof (Forall_inv F) as (Ht & Hb & Hu & Hl). cbn [fst snd] in *.
    rewrite zlen_cons in Hn. pose proof (zlen_nonneg vs). destruct (n =? 31) eqn:E; [lia|].
    set (tail := flat_map sdes_val_write vs ++ SD_END :: rep SD_END k ++ rest) in *.
    assert (flat_map sdes_val_write ((ty, v) :: vs) ++ SD_END :: rep SD_END k ++ rest = ty :: zlen v :: v ++ tail) as ->.
    { cbn [flat_map]. rewrite <- app_assoc. fold tail. unfold sdes_val_write. cbn [fst snd app].
      replace (zlen v mod 256) with (zlen v) by (pose proof (zlen_nonneg v); rewrite Z.mod_small; lia). reflexivity. }
    cbv iota. rewrite !zlen_cons, zlen_app. pose proof (zlen_nonneg v). pose proof (zlen_nonneg tail).
    destruct (_ <? 2) eqn:E2; [lia|]. ridx. destruct (sdes_type_id ty Ht) as [-> Hne].
    destruct (ty =? SD_END) eqn:E3; [destruct (sdes_type_id ty Ht); lia|].
    destruct (_ <? 2 + zlen v) eqn:E4; [lia|].
    assert (from (ty :: zlen v :: v ++ tail) 2 = Ok (v ++ tail)) as -> by exact (from_app [ty; zlen v] (v ++ tail)).
    cbn [bind]. rewrite upto_app, from_app. cbn [bind]. rewrite Hu. unfold tail.
    rewrite IH; [reflexivity|exact (Forall_inv_tail F)|assumption|lia|lia|assumption| |cbn in Hf; lia].
    change (vals_len ((ty, v) :: vs)) with (2 + zlen v + vals_len vs) in Hm. rewrite <- Hm. f_equal. lia.
Qed.

Lemma sdes_size_eq s : zlen (sdes_write s) = sdes_size s * 4.
Proof.
  unfold sdes_write, sdes_size. fold (vals_len (sd_vals s)).
  set (b := be32 (sd_ssrc s) ++ flat_map sdes_val_write (sd_vals s) ++ [SD_END]).
  assert (zlen b = 4 + vals_len (sd_vals s) + 1) as L.
  { unfold b. rewrite !zlen_app, vals_len_eq. change (zlen (be32 (sd_ssrc s))) with 4. change (zlen [SD_END]) with 1. lia. }
  cbv zeta. rewrite L. set (m := 4 + vals_len (sd_vals s) + 1) in *. clearbody m.
  destruct (4 - m mod 4 <? 4) eqn:E; destruct (4 - m mod 4 =? 4) eqn:E2; try (exfalso; clear -E E2; dlia).
  - rewrite zlen_app, zlen_rep, L by (clear -E; dlia). clear -E. dlia.
  - rewrite L. clear -E2. dlia.
Qed.
Lemma sdes_split s : exists k, 0 <= k < 4 /\ (vals_len (sd_vals s) + 1 + k) mod 4 = 0 /\
  sdes_write s = be32 (sd_ssrc s) ++ flat_map sdes_val_write (sd_vals s) ++ SD_END :: rep SD_END k.
Proof.
  unfold sdes_write. set (b := be32 (sd_ssrc s) ++ flat_map sdes_val_write (sd_vals s) ++ [SD_END]).
  assert (zlen b = 4 + vals_len (sd_vals s) + 1) as L.
  { unfold b. rewrite !zlen_app, vals_len_eq. change (zlen (be32 (sd_ssrc s))) with 4. change (zlen [SD_END]) with 1. lia. }
  cbv zeta. rewrite L. set (m := vals_len (sd_vals s)) in *. clearbody m.
  exists ((- (m + 1)) mod 4). split; [dlia|]. split; [dlia|].
  destruct (4 - (4 + m + 1) mod 4 <? 4) eqn:E.
  - replace (4 - (4 + m + 1) mod 4) with ((- (m + 1)) mod 4) by (clear -E; dlia).
    unfold b. rewrite <- !app_assoc. reflexivity.
  - replace ((- (m + 1)) mod 4) with 0 by (clear -E; dlia). reflexivity.
Qed.
Lemma sdes_round s q : sdes_ok s -> bytes_ok q -> sdes_parse (sdes_write s ++ q) = Ok s.
Proof.
  intros (H1 & H2 & H3) Hq. unfold sdes_parse. rewrite zlen_app, sdes_size_eq. pose proof (zlen_nonneg q).
  assert (2 <= sdes_size s) as S2.
  { unfold sdes_size. fold (vals_len (sd_vals s)).
    assert (0 <= vals_len (sd_vals s)) by (rewrite <- vals_len_eq; apply zlen_nonneg).
    set (m := vals_len (sd_vals s)) in *. clearbody m. cbv zeta.
    destruct (4 - (4 + m + 1) mod 4 =? 4) eqn:E; dlia. }
  destruct (_ <? 8) eqn:E; [lia|].
  destruct (sdes_split s) as (k & Hk & Hm & ->). rewrite <- !app_assoc. rewrite rdu32_hd by assumption. cbn [bind].
  change 4 with (zlen (be32 (sd_ssrc s))). rewrite from_app. cbn [bind]. cbn [app].
  rewrite sdes_vals_round with (k := k); try assumption.
  - destruct s; reflexivity.
  - unfold upto31 in H2. unfold zlen. lia.
  - lia.
  - rewrite app_length. enough (length (sd_vals s) <= length (flat_map sdes_val_write (sd_vals s)))%nat by lia.
    clear. induction (sd_vals s) as [|v vs IH]; cbn [flat_map length]; [lia|]. rewrite app_length. unfold sdes_val_write at 1.
    rewrite app_length. cbn [length]. lia.
Qed.
Lemma sdes_bytes s : sdes_ok s -> bytes_ok (sdes_write s).
Proof.
  intros (H1 & H2 & H3). destruct (sdes_split s) as (k & _ & _ & ->).
  apply bytes_ok_app; split; [apply be32_ok|]. apply bytes_ok_app; split.
  - apply bytes_flat_map. intros v Hv. rewrite Forall_forall in H3. destruct (H3 v Hv) as (A & B & C & D).
    unfold sdes_val_write. apply bytes_ok_app; split; [|exact B].
    constructor; [unfold byte_ok; lia|]. constructor; [|constructor]. unfold byte_ok. dlia.
  - constructor; [unfold byte_ok, SD_END; lia|]. unfold rep. apply Forall_forall. intros x Hx. apply repeat_spec in Hx. subst.
    unfold byte_ok, SD_END; lia.
Qed.
Lemma sdess_round : forall l f n, Forall sdes_ok l -> n + zlen l <= 31 -> (length l < f)%nat ->
  sdess_parse f n (flat_map sdes_write l) = Ok l.
Proof.
  induction l as [|s l IH]; intros f n F Hn Hf; destruct f as [|f]; try (cbn in Hf; lia); cbn [sdess_parse flat_map].
  - destruct (n =? 31); reflexivity.
  - rewrite zlen_cons in Hn. pose proof (zlen_nonneg l). destruct (n =? 31) eqn:E; [lia|].
    pose proof (Forall_inv F) as Hs. pose proof (sdes_size_pos s). rewrite zlen_app, sdes_size_eq. pose proof (zlen_nonneg (flat_map sdes_write l)).
    assert (bytes_ok (flat_map sdes_write l)) as B.
    { apply bytes_flat_map. intros a Ha. apply sdes_bytes. rewrite Forall_forall in F. apply F. right; assumption. }
    destruct (_ <? 8) eqn:E8.
    { exfalso. destruct (sdes_split s) as (k & Hk & Hm & W). pose proof (sdes_size_eq s) as Z1. rewrite W in Z1.
      rewrite !zlen_app, zlen_cons, vals_len_eq, zlen_rep in Z1 by lia. change (zlen (be32 (sd_ssrc s))) with 4 in Z1.
      assert (0 <= vals_len (sd_vals s)) by (rewrite <- vals_len_eq; apply zlen_nonneg).
      clear -Z1 E8 H1 H2 Hk. lia. }
    rewrite sdes_round by assumption. cbn [bind].
    destruct l as [|s2 l].
    + cbn [flat_map] in *. change (zlen (@nil Z)) with 0 in *. destruct (_ || _) eqn:Q; [reflexivity|lia].
    + assert (1 <= zlen (flat_map sdes_write (s2 :: l))) as L1.
      { cbn [flat_map]. rewrite zlen_app, sdes_size_eq. pose proof (sdes_size_pos s2). pose proof (zlen_nonneg (flat_map sdes_write l)). lia. }
      destruct (_ || _) eqn:Q; [lia|]. rewrite <- sdes_size_eq, from_app. cbn [bind].
      rewrite IH; [reflexivity|exact (Forall_inv_tail F)|lia|cbn in *; lia].
Qed.

(** ** XR *)
Lemma dlrr_items_round : forall l q, Forall dlrr_ok l -> dlrr_items (length l) (flat_map dlrr_write l ++ q) = Ok l.
Proof.
  induction l as [|d l IH]; intros q F; cbn [length dlrr_items flat_map]; [reflexivity|].
  rewrite <- app_assoc. set (tail := flat_map dlrr_write l ++ q) in *.
  rewrite zlen_app. change (zlen (dlrr_write d)) with 12. pose proof (zlen_nonneg tail). destruct (_ <? 12) eqn:E; [lia|].
  destruct (Forall_inv F) as (H1 & H2 & H3). unfold u32 in *.
  assert (from (dlrr_write d ++ tail) 12 = Ok tail) as FR by exact (from_app (dlrr_write d) tail). rewrite FR.
  unfold dlrr_write, rdu32, be32. cbn [app Z.add Pos.add Pos.succ]. ridx.
  rewrite !rd32_be32 by assumption. unfold tail. rewrite IH by exact (Forall_inv_tail F). cbn [bind]. destruct d; reflexivity.
Qed.
Lemma xblock_len_eq b : xblock_ok b -> zlen (xblock_write b) = xblock_len b.
Proof.
  destruct b as [t|l]; intro H; [reflexivity|]. cbn [xblock_write xblock_len]. rewrite !zlen_app.
  rewrite (flat_map_len dlrr_write 12) by (apply Forall_forall; intros; reflexivity).
  change (zlen [5; 0]) with 2. change (zlen (be16 (zlen l * 3))) with 2. lia.
Qed.
Lemma xblock_round b q : xblock_ok b -> xblock_parse (xblock_write b ++ q) = Ok b.
Proof.
  intro H. destruct b as [t|l].
  - cbn [xblock_write]. rewrite <- !app_assoc. cbn [app xblock_parse Z.eqb Pos.eqb].
    assert (zlen (be64 t) = 8) as L by reflexivity.
    change (4 :: 0 :: be16 2 ++ be64 t ++ q) with ([4; 0; 0; 2] ++ be64 t ++ q). rewrite !zlen_app, L. change (zlen [4; 0; 0; 2]) with 4.
    pose proof (zlen_nonneg q). destruct (_ <? 12) eqn:E; [lia|]. change 4 with (zlen [4; 0; 0; 2]) at 1.
    rewrite rdu64_be by exact H. reflexivity.
  - destruct H as [F Hn]. cbn [xblock_write]. rewrite <- !app_assoc. cbn [app xblock_parse Z.eqb Pos.eqb].
    set (tail := flat_map dlrr_write l ++ q).
    change (5 :: 0 :: be16 (zlen l * 3) ++ tail) with ([5; 0] ++ be16 (zlen l * 3) ++ tail).
    pose proof (zlen_nonneg l). pose proof (zlen_nonneg tail).
    rewrite !zlen_app. change (zlen [5; 0]) with 2. change (zlen (be16 (zlen l * 3))) with 2.
    destruct (_ <? 4) eqn:E; [lia|]. change 2 with (zlen [5; 0]) at 1. rewrite rdu16_be by lia. cbn [bind].
    assert (from ([5; 0] ++ be16 (zlen l * 3) ++ tail) 4 = Ok tail) as -> by exact (from_app ([5; 0] ++ be16 (zlen l * 3)) tail).
    cbn [bind]. rewrite Z.div_mul by lia. unfold zlen at 1. rewrite Nat2Z.id. unfold tail.
    rewrite dlrr_items_round by exact F. reflexivity.
Qed.
Lemma xblocks_round : forall l f, Forall xblock_ok l -> (length l < f)%nat -> xblocks_parse f (flat_map xblock_write l) = Ok l.
Proof.
  induction l as [|b l IH]; intros f F Hf; destruct f as [|f]; try (cbn in Hf; lia); cbn [xblocks_parse flat_map]; [reflexivity|].
  rewrite xblock_round by exact (Forall_inv F). rewrite zlen_app, xblock_len_eq by exact (Forall_inv F).
  pose proof (xblock_len_pos b). pose proof (zlen_nonneg (flat_map xblock_write l)).
  destruct l as [|b2 l].
  - cbn [flat_map] in *. change (zlen (@nil Z)) with 0 in *. destruct (_ || _) eqn:Q; [reflexivity|lia].
  - assert (1 <= zlen (flat_map xblock_write (b2 :: l))) as L1.
    { cbn [flat_map]. rewrite zlen_app, xblock_len_eq by exact (Forall_inv (Forall_inv_tail F)). pose proof (xblock_len_pos b2). pose proof (zlen_nonneg (flat_map xblock_write l)). lia. }
    destruct (_ || _) eqn:Q; [lia|]. rewrite <- (xblock_len_eq b) by exact (Forall_inv F). rewrite from_app. cbn [bind].
    rewrite IH; [reflexivity|exact (Forall_inv_tail F)|cbn in *; lia].
Qed.

(** ** REMB *)
Lemma remb_scale_eq : forall f b e, 0 <= b < 2 ^ (18 + Z.of_nat f) ->
  remb_scale f b e = (b / 2 ^ Z.max 0 (Z.log2 b - 17), e + Z.max 0 (Z.log2 b - 17)).
Proof.
  induction f as [|f IH]; intros b e H; cbn [remb_scale].
  - assert (Z.max 0 (Z.log2 b - 17) = 0) as ->.
    { destruct (Z.eq_dec b 0) as [->|]; [reflexivity|]. 
      assert (Z.log2 b < 18) by (apply Z.log2_lt_pow2; lia). lia. }
    rewrite Z.div_1_r, Z.add_0_r. reflexivity.
  - destruct (262144 <=? b) eqn:E.
    + assert (18 <= Z.log2 b) as L by (apply Z.log2_le_pow2; change (2 ^ 18) with 262144; lia).
      rewrite IH.
      2:{ replace (18 + Z.of_nat (S f)) with (1 + (18 + Z.of_nat f)) in H by lia. rewrite Z.pow_add_r in H by lia.
          change (2 ^ 1) with 2 in H. split; [dlia|]. apply Z.div_lt_upper_bound; lia. }
      assert (Z.log2 (b / 2) = Z.log2 b - 1) as ->.
      { rewrite <- Z.div2_div, Z.div2_spec, Z.log2_shiftr by lia. lia. }
      replace (Z.max 0 (Z.log2 b - 1 - 17)) with (Z.log2 b - 18) by lia.
      replace (Z.max 0 (Z.log2 b - 17)) with (1 + (Z.log2 b - 18)) by lia.
      rewrite Z.pow_add_r by lia. change (2 ^ 1) with 2. rewrite Z.div_div by (try lia; apply Z.pow_pos_nonneg; lia).
      f_equal. lia.
    + assert (Z.max 0 (Z.log2 b - 17) = 0) as ->.
      { destruct (Z.eq_dec b 0) as [->|]; [reflexivity|].
        assert (Z.log2 b < 18) by (apply Z.log2_lt_pow2; [lia|]; change (2 ^ 18) with 262144; lia). lia. }
      rewrite Z.div_1_r, Z.add_0_r. reflexivity.
Qed.
Lemma bit23 m : 0 <= m < 16777216 -> (Z.land m 8388608 =? 0) = (m <? 8388608).
Proof.
  intro H. pose proof (land_pow2 23 m ltac:(lia)) as P. rewrite Z.land_comm in P. change (2 ^ 23) with 8388608 in P.
  assert (0 <= Z.land m 8388608) by (apply Z.land_nonneg; lia).
  assert (Z.testbit m 23 = (8388608 <=? m)) as T.
  { rewrite Z.testbit_eqb by lia. change (2 ^ 23) with 8388608. destruct (8388608 <=? m) eqn:E.
    - replace (m / 8388608) with 1 by dlia. reflexivity.
    - rewrite Z.div_small by lia. reflexivity. }
  rewrite T in P. lia.
Qed.
Lemma remb_norm_eq : forall f m e, 0 < m < 16777216 -> 8388608 <= m * 2 ^ Z.of_nat f ->
  exists k, 0 <= k /\ remb_norm f m e = (m * 2 ^ k, e - k) /\ 8388608 <= m * 2 ^ k < 16777216.
Proof.
  induction f as [|f IH]; intros m e Hm Hf; cbn [remb_norm].
  - change (2 ^ Z.of_nat 0) with 1 in Hf. exists 0. split; [lia|]. change (2 ^ 0) with 1. rewrite Z.mul_1_r. split; [|lia].
    f_equal; lia.
  - rewrite bit23 by lia. destruct (m <? 8388608) eqn:E.
    + destruct (IH (m * 2) (e - 1)) as (k & Hk & Hr & Hb); [lia| |].
      { rewrite Nat2Z.inj_succ, Z.pow_succ_r in Hf by lia. lia. }
      exists (1 + k). split; [lia|]. rewrite Hr. rewrite Z.pow_add_r by lia. change (2 ^ 1) with 2.
      replace (m * (2 * 2 ^ k)) with (m * 2 * 2 ^ k) by ring. split; [|exact Hb]. f_equal. lia.
    + exists 0. split; [lia|]. change (2 ^ 0) with 1. rewrite Z.mul_1_r. split; [|lia]. f_equal; lia.
Qed.
(** exponent and mantissa back to a number *)
Lemma remb_value m e : 0 < m < 262144 -> 0 <= e ->
  (let (mm, e') := remb_norm 24 m (e + 127 + 23) in f32_int e' (Z.land mm 8388607)) = m * 2 ^ e.
Proof.
  intros Hm He. destruct (remb_norm_eq 24 m (e + 127 + 23)) as (k & Hk & -> & Hb); [lia|change (2 ^ Z.of_nat 24) with 16777216; lia|].
  change 8388607 with (2 ^ 23 - 1). rewrite land_mask by lia. change (2 ^ 23) with 8388608.
  unfold f32_int.
  assert (8388608 + m * 2 ^ k mod 8388608 = m * 2 ^ k) as -> by (clear -Hb; set (x := m * 2 ^ k) in *; clearbody x; dlia).
  destruct (150 <=? e + 127 + 23 - k) eqn:E.
  - replace (e + 127 + 23 - k - 150) with (e - k) by lia. rewrite <- Z.mul_assoc, <- Z.pow_add_r by lia. f_equal. f_equal. lia.
  - replace (150 - (e + 127 + 23 - k)) with (k - e) by lia.
    replace (2 ^ k) with (2 ^ e * 2 ^ (k - e)) by (rewrite <- Z.pow_add_r by lia; f_equal; lia).
    rewrite Z.mul_assoc, Z.div_mul; [reflexivity|]. apply Z.pow_nonzero; lia.
Qed.
Lemma remb_pack m e : 0 <= m < 262144 -> 0 <= e < 64 ->
  let b17 := Z.lor (e * 4 mod 256) (m / 65536 mod 256) in
  0 <= b17 < 256 /\ b17 / 4 = e /\
  Z.lor (Z.lor (Z.land b17 3 * 65536) (m / 256 mod 256 * 256)) (m mod 256) = m.
Proof.
  intros Hm He b17. assert (b17 = e * 4 + m / 65536) as E.
  { subst b17. rewrite (lor_add _ _ 2) by (change (2 ^ 2) with 4; dlia). dlia. }
  rewrite E. split; [dlia|]. split; [dlia|].
  change 3 with (2 ^ 2 - 1). rewrite land_mask by lia. change (2 ^ 2) with 4.
  replace ((e * 4 + m / 65536) mod 4) with (m / 65536) by dlia.
  rewrite (lor_add _ (m / 256 mod 256 * 256) 16) by (change (2 ^ 16) with 65536; dlia).
  rewrite (lor_add _ (m mod 256) 8) by (change (2 ^ 8) with 256; dlia). dlia.
Qed.

Lemma remb_round a b s w : u32 a -> 1 <= b <= REMB_MAX -> Forall u32 s -> zlen s <= 255 ->
  exists body, remb_write a b s w = hdr 15 206 w ++ body /\ zlen body = 16 + zlen s * 4 /\ bytes_ok body /\
    remb_parse body = Ok (Remb a (remb_rate b) s).
Proof.
  intros Ha Hb Hs Hn. unfold remb_write.
  assert (0 <= b < 2 ^ (18 + Z.of_nat 64)) as R.
  { unfold REMB_MAX in Hb. change (2 ^ (18 + Z.of_nat 64)) with (2 ^ 82). change (2 ^ 63) with 9223372036854775808 in Hb.
    change (2 ^ 82) with 4835703278458516698824704. lia. }
  replace (Z.max 0 (Z.min REMB_MAX b)) with b by lia. rewrite remb_scale_eq by exact R. rewrite Z.add_0_l.
  set (e := Z.max 0 (Z.log2 b - 17)). 
  assert (0 <= e < 64) as He.
  { unfold e. split; [lia|]. assert (Z.log2 b < 81); [|lia]. apply Z.log2_lt_pow2; [lia|]. unfold REMB_MAX in Hb.
    change (2 ^ 63) with 9223372036854775808 in Hb. change (2 ^ 81) with 2417851639229258349412352. lia. }
  assert (0 < b / 2 ^ e < 262144) as Hm.
  { unfold e. destruct (Z.log2_spec b ltac:(lia)) as [L1 L2]. destruct (Z.le_ge_cases (Z.log2 b) 17) as [L|L].
    - replace (Z.max 0 (Z.log2 b - 17)) with 0 by lia. change (2 ^ 0) with 1. rewrite Z.div_1_r. split; [lia|].
      apply Z.lt_le_trans with (2 ^ Z.succ (Z.log2 b)); [lia|]. change 262144 with (2 ^ 18). apply Z.pow_le_mono_r; lia.
    - replace (Z.max 0 (Z.log2 b - 17)) with (Z.log2 b - 17) by lia.
      assert (0 < 2 ^ (Z.log2 b - 17)) by (apply Z.pow_pos_nonneg; lia). split.
      + apply Z.div_str_pos. split; [assumption|]. apply Z.le_trans with (2 ^ Z.log2 b); [|lia]. apply Z.pow_le_mono_r; lia.
      + apply Z.div_lt_upper_bound; [assumption|]. change 262144 with (2 ^ 18). rewrite <- Z.pow_add_r by lia.
        replace (Z.log2 b - 17 + 18) with (Z.succ (Z.log2 b)) by lia. exact L2. }
  set (m := b / 2 ^ e) in *. assert (m * 2 ^ e = remb_rate b) as V by reflexivity.
  clearbody m e. clear R.
  destruct (remb_pack m e ltac:(lia) He) as (P1 & P2 & P3). set (b17 := Z.lor (e * 4 mod 256) (m / 65536 mod 256)) in *.
  clearbody b17. pose proof (zlen_nonneg s) as Ns. replace (zlen s mod 256) with (zlen s) by (rewrite Z.mod_small; lia).
  exists (be32 a ++ [0; 0; 0; 0] ++ [82; 69; 77; 66] ++ [zlen s; b17; m / 256 mod 256; m mod 256] ++ flat_map be32 s).
  split; [reflexivity|].
  assert (zlen (flat_map be32 s) = zlen s * 4) as Ls by (apply flat_map_len; apply Forall_forall; reflexivity).
  split; [rewrite !zlen_app, Ls; change (zlen (be32 a)) with 4; change (zlen [zlen s; b17; m / 256 mod 256; m mod 256]) with 4; change (zlen [0;0;0;0]) with 4; change (zlen [82;69;77;66]) with 4; lia|].
  split.
  { apply bytes_ok_app; split; [apply be32_ok|].
    apply bytes_ok_app; split; [repeat (apply Forall_cons; [unfold byte_ok; lia|]); apply Forall_nil|].
    apply bytes_ok_app; split; [repeat (apply Forall_cons; [unfold byte_ok; lia|]); apply Forall_nil|].
    apply bytes_ok_app; split; [repeat (apply Forall_cons; [unfold byte_ok; dlia|]); apply Forall_nil|].
    apply bytes_flat_map. intros; apply be32_ok. }
  unfold remb_parse.
  match goal with |- context [rdu32 ?l 0] => set (l0 := l) end.
  assert (zlen l0 = 16 + zlen s * 4) as L0.
  { unfold l0. rewrite !zlen_app, Ls. change (zlen (be32 a)) with 4. change (zlen [zlen s; b17; m / 256 mod 256; m mod 256]) with 4.
    change (zlen [0;0;0;0]) with 4. change (zlen [82;69;77;66]) with 4. lia. }
  rewrite L0. destruct (_ <? 16) eqn:E; [lia|].
  assert (rdu32 l0 0 = Ok a) as -> by exact (rdu32_hd a _ Ha).
  assert (rdu32 l0 4 = Ok 0) as -> by reflexivity.
  assert (idx l0 8 = Ok 82) as -> by reflexivity. assert (idx l0 9 = Ok 69) as -> by reflexivity.
  assert (idx l0 10 = Ok 77) as -> by reflexivity. assert (idx l0 11 = Ok 66) as -> by reflexivity.
  assert (idx l0 12 = Ok (zlen s)) as -> by reflexivity. assert (idx l0 13 = Ok b17) as -> by reflexivity.
  assert (idx l0 14 = Ok (m / 256 mod 256)) as -> by reflexivity. assert (idx l0 15 = Ok (m mod 256)) as -> by reflexivity.
  cbn [bind Z.eqb Pos.eqb negb andb]. rewrite P3, P2. destruct (m =? 0) eqn:E0; [lia|].
  pose proof (remb_value m e ltac:(lia) ltac:(lia)) as RV. destruct (remb_norm 24 m (e + 127 + 23)) as [mm e'].
  rewrite RV, V. 
  destruct (16 + zlen s * 4 <? 16 + zlen s * 4) eqn:E2; [lia|].
  assert (from l0 16 = Ok (flat_map be32 s)) as ->.
  { exact (from_app (be32 a ++ [0;0;0;0;82;69;77;66;zlen s;b17; m / 256 mod 256; m mod 256]) (flat_map be32 s)). }
  cbn [bind]. unfold zlen at 1. rewrite Nat2Z.id. rewrite <- (app_nil_r (flat_map be32 s)).
  rewrite read_n_round; [reflexivity|]. eapply Forall_impl; [|exact Hs]. intros x Hx. split; [reflexivity|].
  intro r. apply rdu32_hd. exact Hx.
Qed.

(** ** APP *)
Lemma app_not_remb a m pl : u32 a -> u32 m -> ~ looks_like_remb m pl ->
  remb_parse (be32 a ++ be32 m ++ pl ++ rep 0 ((- zlen pl) mod 4)) = Err.
Proof.
  intros Ha Hm Hn. unfold remb_parse.
  set (k := (- zlen pl) mod 4). assert (0 <= k < 4) as Hk by (unfold k; dlia).
  rewrite !zlen_app, zlen_rep by lia. change (zlen (be32 a)) with 4. change (zlen (be32 m)) with 4.
  destruct (_ <? 16) eqn:E; [reflexivity|].
  set (tail := pl ++ rep 0 k). assert (zlen pl + k = zlen tail) as LT by (unfold tail; rewrite zlen_app, zlen_rep by lia; reflexivity).
  assert (5 <= zlen pl) as L5 by lia.
  rewrite rdu32_hd by assumption. cbn [bind].
  assert (rdu32 (be32 a ++ be32 m ++ tail) 4 = Ok m) as -> by exact (rdu32_be m (be32 a) tail Hm). cbn [bind].
  destruct (m =? 0) eqn:Em; [cbn [negb]|reflexivity].
  assert (m = 0) as -> by lia.
  destruct pl as [|p0 [|p1 [|p2 [|p3 pl']]]]; try (cbn in L5; lia).
  unfold tail. cbn [app].
  set (l0 := be32 a ++ be32 0 ++ p0 :: p1 :: p2 :: p3 :: pl' ++ rep 0 k).
  assert (idx l0 8 = Ok p0) as -> by reflexivity. assert (idx l0 9 = Ok p1) as -> by reflexivity.
  assert (idx l0 10 = Ok p2) as -> by reflexivity. assert (idx l0 11 = Ok p3) as -> by reflexivity.
  cbn [bind]. destruct ((p0 =? 82) && (p1 =? 69) && (p2 =? 77) && (p3 =? 66)) eqn:Q; [|reflexivity].
  exfalso. apply Hn. split; [reflexivity|]. exists pl'. repeat f_equal; lia.
Qed.
Lemma app_round a m q : u32 a -> u32 m -> app_parse (be32 a ++ be32 m ++ q) = Ok (App a m q).
Proof.
  intros Ha Hm. unfold app_parse. rewrite !zlen_app. change (zlen (be32 a)) with 4. change (zlen (be32 m)) with 4.
  pose proof (zlen_nonneg q). destruct (_ <? 8) eqn:E; [lia|]. rewrite rdu32_hd by assumption.
  pose proof (rdu32_be m (be32 a) q Hm) as R. change (zlen (be32 a)) with 4 in R. rewrite R. cbn [bind].
  assert (from (be32 a ++ be32 m ++ q) 8 = Ok q) as ->; [|reflexivity].
  rewrite app_assoc. exact (from_app (be32 a ++ be32 m) q).
Qed.

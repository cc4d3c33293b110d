(** C14 (RTP header), C15 (RTP padding), C16 (header extensions). *)
From Verif Require Import Base BaseFacts MtimeModel ExtModel ExtSpec ExtProofs ExtProofs2 HeaderModel HeaderSpec HeaderProofs.

(** * C14 *)
Theorem C14_parse_never_panics : forall E m buf, bytes_ok buf -> parse_header E buf m <> Panic.
Proof. intros. apply parse_header_no_panic. assumption. Qed.

(** A valid header, written into a big enough buffer and followed by any payload, is read back:
    all fields, the exact length, and hence the payload. *)
Theorem C14_round_trip : forall E cap h m payload,
  header_ok h -> has_extension h = true -> ev_ok (ext_vals h) -> map_ok m (ext_vals h) ->
  19 + 4 * csrc_count h + room m <= cap ->
  exists bs h', write_header cap h m = Ok bs /\ bytes_ok bs /\ zlen bs mod 4 = 0 /\ zlen bs <= cap /\
    parse_header E (bs ++ payload) m = Ok h' /\ same_header h h' /\
    header_len h' = zlen bs /\ from (bs ++ payload) (header_len h') = Ok payload.
Proof.
  intros E cap h m payload H1 H2 H3 H4 H5.
  destruct (header_roundtrip E cap h m payload H1 H2 H3 H4 ltac:(lia)) as (bs & h' & W & B & M & L & P & S & _ & HL & _).
  exists bs, h'. repeat (split; [assumption|]). rewrite HL. apply from_app.
Qed.

(** The contributing sources beyond the count are zero after parsing. *)
Theorem C14_csrc_exact : forall E cap h m payload,
  header_ok h -> has_extension h = true -> ev_ok (ext_vals h) -> map_ok m (ext_vals h) ->
  19 + 4 * csrc_count h + room m <= cap ->
  forall bs h', write_header cap h m = Ok bs -> parse_header E (bs ++ payload) m = Ok h' ->
  csrc h' = firstn (Z.to_nat (csrc_count h)) (csrc h) ++ rep 0 (15 - csrc_count h).
Proof.
  intros E cap h m payload H1 H2 H3 H4 H5 bs h' W P.
  destruct (header_roundtrip E cap h m payload H1 H2 H3 H4 ltac:(lia)) as (bs2 & h2 & W2 & _ & _ & _ & P2 & _ & _ & _ & C).
  rewrite W in W2. injection W2 as <-. rewrite P in P2. injection P2 as <-. exact C.
Qed.

(** ** A concrete case *)
Definition ex_map : extmap :=
  [Some AudioLevel; Some AbsoluteSendTime; Some TransportSequenceNumber; Some RtpMid; None; None; None;
   None; None; Some RtpStreamId; None; None; None; None; None; None].
Definition ex_ev : extvals :=
  mkEV (Some (-30)) (Some true) None None None (Some 5000000000) None (Some 777) None None None (Some [97; 98]) None
       (Some [48]) None None.
Definition ex_h : header :=
  mkH 2 false true 2 true 96 65000 123456789 42 [7; 8; 0; 0; 0; 0; 0; 0; 0; 0; 0; 0; 0; 0; 0] ex_ev 0.
Example C14_hypotheses_met : header_ok ex_h /\ has_extension ex_h = true /\ ev_ok (ext_vals ex_h) /\
  map_ok ex_map (ext_vals ex_h) /\ 19 + 4 * csrc_count ex_h + room ex_map <= 1500.
Proof.
  split. { constructor; cbn; unfold u16_ok, u32_ok, U16, U32; try lia. split; [reflexivity|]. repeat constructor; unfold u32_ok, U32; lia. }
  split; [reflexivity|]. split.
  { constructor; cbn; unfold u16_ok, u32_ok, U16, U32, U64, id_ok, byte_ok; try lia; try exact I.
    all: repeat split; try lia; try (vm_compute; congruence); repeat constructor. }
  split. { split; [reflexivity|]. intros two I. exfalso. cbn in I. repeat destruct I as [I|I]; try discriminate. exact I. }
  vm_compute. discriminate.
Qed.
Example C14_concrete :
  match write_header 1500 ex_h ex_map with
  | Ok bs => zlen bs = 40 /\ match parse_header 0 (bs ++ [1; 2; 3]) ex_map with
       | Ok h => from (bs ++ [1; 2; 3]) (header_len h) = Ok [1; 2; 3] /\ mid (ext_vals h) = Some [48] | _ => False end
  | _ => False end.
Proof. vm_compute. repeat split; reflexivity. Qed.

(** [has_extension = false] is ignored by the writer: it always writes the extension block, so the
    reader takes four bytes of it for payload (header.rs:60-78). *)
Theorem C14_no_extension_refuted : exists h m bs h',
  header_ok h /\ has_extension h = false /\ ev_ok (ext_vals h) /\ map_ok m (ext_vals h) /\
  write_header 1500 h m = Ok bs /\ parse_header 0 (bs ++ [1; 2; 3]) m = Ok h' /\
  from (bs ++ [1; 2; 3]) (header_len h') <> Ok [1; 2; 3].
Proof.
  exists (mkH 2 false false 0 false 96 1 1 1 (rep 0 15) ev0 0), (repeat None 16).
  eexists. eexists. split.
  { constructor; cbn; unfold u16_ok, u32_ok, U16, U32; try lia. split; [reflexivity|]. repeat constructor; unfold u32_ok, U32; lia. }
  split; [reflexivity|]. split; [constructor; exact I|]. split.
  { split; [reflexivity|]. intros two I. exfalso. cbn in I. repeat destruct I as [I|I]; try discriminate. exact I. }
  split; [vm_compute; reflexivity|]. split; [vm_compute; reflexivity|]. vm_compute. discriminate.
Qed.

(** * C15 *)
Theorem C15_unpad_safe : forall buf, bytes_ok buf ->
  unpad_payload buf <> Panic /\ forall p, unpad_payload buf = Ok p -> exists s, buf = p ++ s.
Proof. intros. apply unpad_total. assumption. Qed.

Theorem C15_unpad_padded : forall payload n, 1 <= n <= 255 ->
  unpad_payload (payload ++ rep 0 (n - 1) ++ [n]) = Ok payload.
Proof. intros. apply unpad_padded. assumption. Qed.

(** Unpadding rejects exactly the packets whose last byte is larger than the packet. *)
Theorem C15_unpad_rejects : forall buf last, bytes_ok (buf ++ [last]) ->
  (unpad_payload (buf ++ [last]) = Err <-> zlen buf + 1 < last).
Proof.
  intros buf last B. apply bytes_ok_app in B as [_ B]. inversion B as [|? ? B1 _]; subst. unfold byte_ok in B1.
  unfold unpad_payload. pose proof (zlen_nonneg buf).
  assert (zlen (buf ++ [last]) = zlen buf + 1) as L by (rewrite zlen_app, zlen_cons, zlen_nil; lia).
  rewrite L. destruct (zlen buf + 1 =? 0) eqn:Q; [lia|].
  rewrite idx_app_r by lia. replace (zlen buf + 1 - 1 - zlen buf) with 0 by lia. ridx.
  destruct (zlen buf + 1 <? last) eqn:Q1; [split; [lia|reflexivity]|].
  rewrite upto_ok by lia. split; [discriminate|lia].
Qed.

Lemma round_up_unique n b r : 0 < n -> 0 < b ->
  r = (if n mod b =? 0 then n else (n / b + 1) * b) -> is_round_up n b r.
Proof.
  intros Hn Hb ->. destruct (n mod b =? 0) eqn:Q.
  - split; [exists (n / b)|]. { pose proof (Z.div_mod n b). lia. }
    split; [lia|]. intros k Hk. lia.
  - pose proof (Z.div_mod n b ltac:(lia)) as D. pose proof (Z.mod_pos_bound n b Hb) as M.
    split; [exists (n / b + 1); lia|]. split; [nia|]. intros k Hk.
    assert (n / b < k) by nia. nia.
Qed.

(** A padding-only packet: the padding bit is set, nothing before the padding changes otherwise, its
    length is the rounded length capped at 240, and unpadding leaves nothing. *)
Theorem C15_padding_packet : forall b0 hdr buf pad block,
  0 < pad <= 255 -> 0 < block -> 240 <= zlen buf ->
  exists r r0 rest, is_round_up pad block r0 /\ r = Z.min r0 240 /\ zlen rest = zlen buf - r /\
    create_padding_packet (b0 :: hdr ++ buf) (1 + zlen hdr) pad block
      = Ok ((Z.lor b0 32 :: hdr) ++ (rep 0 (r - 1) ++ [r]) ++ rest, r) /\
    unpad_payload (rep 0 (r - 1) ++ [r]) = Ok [].
Proof.
  intros b0 hdr buf pad block Hp Hb HL.
  set (r0 := if pad mod block =? 0 then pad else (pad / block + 1) * block).
  assert (is_round_up pad block r0) as RU by (apply round_up_unique; [lia|lia|reflexivity]).
  assert (pad <= r0) as PR by apply RU.
  exists (Z.min r0 240), r0. unfold create_padding_packet. fold r0. unfold MAX_BLANK.
  destruct (pad =? 0) eqn:Q1; [lia|]. destruct (block =? 0) eqn:Q2; [lia|].
  set (r := Z.min r0 240). assert (1 <= r <= 240) as R by (subst r; lia). 
  assert (r = Z.min r0 240) as RE by reflexivity. clearbody r r0.
  exists (skipn (Z.to_nat r) buf). split; [exact RU|]. split; [reflexivity|].
  split; [rewrite zlen_skipn; lia|]. pose proof (zlen_nonneg hdr) as NH. split.
  - unfold do_pad. destruct (255 <? r) eqn:Q3; [lia|]. ridx.
    assert (zlen (b0 :: hdr ++ buf) = 1 + zlen hdr + zlen buf) as L by (rewrite zlen_cons, zlen_app; lia).
    rewrite L. destruct (1 + zlen hdr + zlen buf <? 1 + zlen hdr + r) eqn:Q4; [lia|].
    destruct (r <? 1) eqn:Q5; [lia|].
    change (b0 :: hdr ++ buf) with ((b0 :: hdr) ++ buf).
    assert (1 + zlen hdr = zlen (b0 :: hdr)) as HE by (rewrite zlen_cons; lia). rewrite HE.
    rewrite upto_app. cbn [bind].
    rewrite from_ok by (rewrite zlen_app, zlen_cons; lia). cbn [bind].
    assert (skipn (Z.to_nat (zlen (b0 :: hdr) + r)) ((b0 :: hdr) ++ buf) = skipn (Z.to_nat r) buf) as ->.
    { rewrite skipn_app. rewrite skipn_all2 by (unfold zlen; lia). cbn [app]. f_equal. unfold zlen. lia. }
    rewrite (Z.mod_small r) by lia. cbn [app lset]. do 3 f_equal. rewrite <- app_assoc. reflexivity.
  - apply (unpad_padded [] r). lia.
Qed.
Example C15_concrete : exists buf, create_padding_packet (128 :: rep 7 11 ++ rep 9 300) 12 50 16 = Ok (buf, 64) /\
  slice buf 12 76 = Ok (rep 0 63 ++ [64]) /\ idx buf 0 = Ok 160.
Proof. eexists. split; [vm_compute; reflexivity|]. split; vm_compute; reflexivity. Qed.

(** The RTX original sequence number. *)
Theorem C15_rtx_sequence_number : forall seq payload, 0 <= seq ->
  read_osn (write_osn seq ++ payload) = Some (seq mod U16, 2) /\ from (write_osn seq ++ payload) 2 = Ok payload.
Proof.
  intros seq payload H. split.
  - unfold write_osn, be16. cbn [app read_osn]. rewrite rd16_be16 by (apply Z.mod_pos_bound; reflexivity). reflexivity.
  - change 2 with (zlen (write_osn seq)). apply from_app.
Qed.

(** * C16 *)
(** Every set of legal values is written by every map and read back by the same map as the values of
    the mapped extensions; everything else about the voice flag is in [C16_voice_activity_refuted]. *)
Theorem C16_round_trip_voice : forall E e m cap,
  ev_ok e -> map_ok m e -> room m <= cap ->
  (voice_activity e = Some false -> opt_ok (fun l => l = 0) (audio_level e)) ->
  exists bs, write_exts 1 m e (form_of m) cap = Ok bs /\ bytes_ok bs /\
    forall padding, parse_exts (S (length (bs ++ repeat 0 padding))) E m (form_of m) (bs ++ repeat 0 padding) ev0
      = Ok (arrives (fun _ v => v) E m e).
Proof.
  intros E e m cap OK MO R V. destruct (exts_roundtrip E e m cap OK MO R) as (bs & W & B & _ & P).
  exists bs. split; [exact W|]. split; [exact B|]. intro p. rewrite P by (rewrite app_length, repeat_length; lia).
  f_equal. unfold arrives. f_equal. f_equal. unfold both. destruct (audio_level e) as [l|]; [|reflexivity].
  destruct (voice_activity e) as [v|]; [|reflexivity]. f_equal. unfold vad_real.
  destruct v; [reflexivity|]. specialize (V eq_refl). cbn in V. subst. reflexivity.
Qed.

(** Without the restriction: what arrives for the flag is "voice, or any level below 0 dBov". *)
Theorem C16_round_trip_exact : forall E e m cap,
  ev_ok e -> map_ok m e -> room m <= cap ->
  exists bs, write_exts 1 m e (form_of m) cap = Ok bs /\ bytes_ok bs /\
    forall padding, parse_exts (S (length (bs ++ repeat 0 padding))) E m (form_of m) (bs ++ repeat 0 padding) ev0
      = Ok (arrives (fun l v => v || negb (l =? 0)) E m e).
Proof.
  intros E e m cap OK MO R. destruct (exts_roundtrip E e m cap OK MO R) as (bs & W & B & _ & P).
  exists bs. split; [exact W|]. split; [exact B|]. intro p. rewrite P by (rewrite app_length, repeat_length; lia). reflexivity.
Qed.

(** ext.rs:667-672: a silent participant with audio level -30 is reported as speaking. *)
Theorem C16_voice_activity_refuted : exists e m bs e',
  ev_ok e /\ map_ok m e /\ room m <= 1500 /\ voice_activity e = Some false /\ In (Some AudioLevel) m /\
  write_exts 1 m e (form_of m) 1500 = Ok bs /\ parse_exts (S (length bs)) 0 m (form_of m) bs ev0 = Ok e' /\
  audio_level e' = audio_level e /\ voice_activity e' = Some true.
Proof.
  exists (mkEV (Some (-30)) (Some false) None None None None None None None None None None None None None None),
    (Some AudioLevel :: repeat None 15).
  eexists. eexists. split; [constructor; cbn; try lia; exact I|]. split.
  { split; [reflexivity|]. intros two I. exfalso. cbn in I. repeat destruct I as [I|I]; try discriminate. exact I. }
  split; [vm_compute; discriminate|]. split; [reflexivity|]. split; [left; reflexivity|].
  split; [vm_compute; reflexivity|]. split; [vm_compute; reflexivity|]. split; reflexivity.
Qed.

(** Malformed bytes never panic and never loop. *)
Theorem C16_parse_total : forall E m f buf e, bytes_ok buf ->
  exists e', parse_exts (S (length buf)) E m f buf e = Ok e'.
Proof. intros. apply parse_exts_total; [assumption|lia]. Qed.

(** An id the receiver has not mapped is skipped: the rest is read as if it were not there. *)
Theorem C16_unknown_skipped : forall E m id body rest e, lookup m id = None -> 1 <= id <= 14 ->
  1 <= zlen body <= 16 -> bytes_ok body -> bytes_ok rest ->
  forall fuel, (length rest < fuel)%nat ->
  parse_exts (S fuel) E m OneByte (Z.lor (Z.shiftl id 4 mod 256) (zlen body - 1) :: body ++ rest) e
  = parse_exts fuel E m OneByte rest e.
Proof.
  intros E m id body rest e LK Hid Hb B1 B2 fuel F.
  destruct (hdr1 id (zlen body) Hid Hb) as (H1 & H2 & H3).
  set (h := Z.lor (Z.shiftl id 4 mod 256) (zlen body - 1)) in *. clearbody h.
  cbn [parse_exts]. rewrite zlen_cons. pose proof (zlen_nonneg (body ++ rest)).
  destruct (1 + zlen (body ++ rest) =? 0) eqn:Q; [lia|]. ridx. destruct (h =? 0) eqn:Q0; [lia|].
  change (h :: body ++ rest) with ([h] ++ body ++ rest). change 1 with (zlen [h]) at 1. rewrite from_app. cbn [bind].
  rewrite H2, H3. destruct (id =? 15) eqn:Q1; [lia|].
  destruct (zlen (body ++ rest) <? zlen body) eqn:Q2. { rewrite zlen_app in Q2. pose proof (zlen_nonneg rest). lia. }
  rewrite upto_app. cbn [bind]. rewrite LK. cbn [bind]. rewrite from_app. reflexivity.
Qed.

(** The same in the two-byte form, for any id and any length. *)
Theorem C16_unknown_skipped_two_byte : forall E m id body rest e, lookup m id = None -> 1 <= id <= 255 ->
  forall fuel,
  parse_exts (S fuel) E m TwoByte (id :: zlen body :: body ++ rest) e = parse_exts fuel E m TwoByte rest e.
Proof.
  intros E m id body rest e LK Hid fuel.
  cbn [parse_exts]. rewrite !zlen_cons. pose proof (zlen_nonneg (body ++ rest)).
  destruct (1 + (1 + zlen (body ++ rest)) =? 0) eqn:Q; [lia|]. ridx. destruct (id =? 0) eqn:Q0; [lia|].
  destruct (1 + (1 + zlen (body ++ rest)) <? 2) eqn:Q1; [lia|].
  change (id :: zlen body :: body ++ rest) with ([id; zlen body] ++ body ++ rest). change 2 with (zlen [id; zlen body]) at 1.
  rewrite from_app. cbn [bind].
  destruct (zlen (body ++ rest) <? zlen body) eqn:Q2. { rewrite zlen_app in Q2. pose proof (zlen_nonneg rest). lia. }
  rewrite upto_app. cbn [bind]. rewrite LK. cbn [bind]. rewrite from_app. reflexivity.
Qed.

(** An id outside 1..16 is never mapped, so the reserved one-byte id 15 and ids over 16 are harmless. *)
Theorem C16_lookup_range : forall m id x, lookup m id = Some x -> 1 <= id <= 16.
Proof. intros m id x. unfold lookup, MAX_ID. destruct ((1 <=? id) && (id <=? 16)) eqn:Q; [lia|discriminate]. Qed.

(** An empty mid panics the writer in the one-byte form: the ids are assumed non-empty. *)
Theorem C16_empty_mid_refuted : exists m e, map_ok m e /\ room m <= 1500 /\ mid e = Some [] /\
  write_exts 1 m e (form_of m) 1500 = Panic.
Proof.
  exists (Some RtpMid :: repeat None 15), (set_mid ev0 []). split.
  { split; [reflexivity|]. intros two I. exfalso. cbn in I. repeat destruct I as [I|I]; try discriminate. exact I. }
  split; [vm_compute; discriminate|]. split; reflexivity.
Qed.

(** The absolute send time: after the receiver resolves it against its clock, it is the send time
    to within 6 us, if it was sent within the last 64 s and the process started 64 s ago. *)
Lemma sent_18_value t : 0 <= t -> exists w u, t / 1000 = 64000000 * w + u /\ 0 <= u < 64000000 /\ 0 <= w /\
  u - 5 < sent_18 t * 1000000 / 262144 <= u.
Proof.
  intros H. exists (t / 1000 / 64000000), (t / 1000 mod 64000000). assert (0 <= t / 1000) by (apply Z.div_pos; lia).
  unfold sent_18. set (n := t / 1000) in *. clearbody n.
  split; [dlia|]. split; [dlia|]. split; [dlia|].
  assert (n * 262144 / 1000000 = n / 64000000 * 16777216 + n mod 64000000 * 262144 / 1000000) as ->.
  { rewrite (Z.div_mod n 64000000) at 1 by lia.
    replace ((64000000 * (n / 64000000) + n mod 64000000) * 262144)
      with (n mod 64000000 * 262144 + n / 64000000 * 16777216 * 1000000) by lia.
    rewrite Z.div_add by lia. lia. }
  rewrite Z.add_comm, Z.mod_add by lia.
  assert (0 <= n mod 64000000 < 64000000) as U by (apply Z.mod_pos_bound; lia).
  set (u := n mod 64000000) in *. clearbody u.
  rewrite Z.mod_small by dlia. dlia.
Qed.

Theorem C16_absolute_send_time : forall E t now,
  0 <= E -> 0 <= t <= now -> now - t < 64000000000 - 6000 -> E + 64000000000 <= now ->
  exists r, update_ast E now (arrives_ast E t) = Ok r /\ -6000 < r - t < 1000.
Proof.
  intros E t now HE Ht Hn HN. destruct (sent_18_value t ltac:(lia)) as (w & u & U1 & U2 & U3 & U4).
  unfold update_ast, arrives_ast. set (rel := sent_18 t * 1000000 / 262144) in *. clearbody rel.
  replace (E + rel * 1000 - E) with (rel * 1000) by lia.
  destruct (64000000000 <? rel * 1000) eqn:Q; [lia|].
  assert (exists w2 u2 k, now = (64000000 * w2 + u2) * 1000 + k /\ 0 <= k < 1000 /\ 0 <= u2 < 64000000 /\
     (now / 1000) mod 64000000 = u2) as (w2 & u2 & k & N1 & N2 & N3 & N4).
  { exists (now / 1000 / 64000000), (now / 1000 mod 64000000), (now mod 1000).
    repeat split; try dlia. }
  rewrite N4. assert (t = (64000000 * w + u) * 1000 + t mod 1000) as T1 by dlia.
  assert (0 <= t mod 1000 < 1000) as T2 by dlia. set (tm := t mod 1000) in *. clearbody tm.
  clear U1 N4. rewrite (Z.max_r 0 (now - u2 * 1000)) by lia.
  rewrite Z.max_r by lia.
  match goal with |- context [if ?c then _ else _] => destruct c eqn:Q2 end; eexists; (split; [reflexivity|]); lia.
Qed.
(** Resolving never panics on a parsed value. *)
Theorem C16_resolve_total : forall E t now, 0 <= t -> exists r, update_ast E now (arrives_ast E t) = Ok r.
Proof.
  intros E t now H. destruct (sent_18_value t H) as (w & u & U1 & U2 & U3 & U4).
  unfold update_ast, arrives_ast. replace (E + sent_18 t * 1000000 / 262144 * 1000 - E) with (sent_18 t * 1000000 / 262144 * 1000) by lia.
  match goal with |- context [if ?c then Panic else _] => destruct c eqn:Q end; [lia|eexists; reflexivity].
Qed.
Example C16_absolute_send_time_concrete : 0 <= 10 /\ 0 <= 100000000000 <= 100050000000 /\
  update_ast 10 100050000000 (arrives_ast 10 100000000000) = Ok 100000000000.
Proof. split; [lia|]. split; [lia|]. vm_compute. reflexivity. Qed.

Print Assumptions C14_round_trip.
Print Assumptions C15_padding_packet.
Print Assumptions C16_round_trip_exact.
Print Assumptions C16_absolute_send_time.

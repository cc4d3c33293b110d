(** C29: data channel OPEN/ACK messages. *)
From Verif Require Import Base BaseFacts RtcpModel DcepModel.

(** ** Specification: RFC 8832 section 5.1, as a relation between bytes and fields. *)
Record open_msg := mkMsg {
  o_type : Z;       (* channel type byte *)
  o_prio : Z; o_param : Z; o_label : list Z; o_proto : list Z
}.

(** The message [m], followed by [tail]. *)
Definition layout (m : open_msg) (tail : list Z) : list Z :=
  [3; o_type m; o_prio m / 256; o_prio m mod 256;
   o_param m / 16777216; o_param m / 65536 mod 256; o_param m / 256 mod 256; o_param m mod 256;
   zlen (o_label m) / 256; zlen (o_label m) mod 256; zlen (o_proto m) / 256; zlen (o_proto m) mod 256]
  ++ o_label m ++ o_proto m ++ tail.

Definition valid_msg (m : open_msg) : Prop :=
  0 <= o_type m < 256 /\ 0 <= o_prio m < 65536 /\ 0 <= o_param m < 4294967296 /\
  zlen (o_label m) < 65536 /\ zlen (o_proto m) < 65536 /\
  utf8 (o_label m) = true /\ utf8 (o_proto m) = true.

(** Channel types of RFC 8832: bit 7 = unordered; 0 reliable, 1 partial reliable rexmit, 2 timed. *)
Definition type_byte (ordered : bool) (r : reliability) : Z :=
  (if ordered then 0 else 128) +
  match r with Reliable => 0 | MaxRetransmits _ => 1 | MaxPacketLifetime _ => 2 end.
Definition param (r : reliability) : Z :=
  match r with Reliable => 0 | MaxRetransmits n => n | MaxPacketLifetime n => n end.

Definition valid_config (c : config) : Prop :=
  utf8 (c_label c) = true /\ utf8 (c_proto c) = true /\ 0 <= param (c_rel c) < 65536.

(** ** Writing *)
(** A channel whose label and protocol fit 1488 bytes is announced in the RFC 8832 layout; with more
    the call panics. *)
Theorem C29_open_written : forall c, valid_config c ->
  zlen (c_label c) + zlen (c_proto c) <= 1488 ->
  send_open c = Ok (layout (mkMsg (type_byte (c_ordered c) (c_rel c)) 0 (param (c_rel c)) (c_label c) (c_proto c)) []).
Proof.
  intros c (U1 & U2 & P) L. unfold send_open, open_write, dcep_of_config. cbn [d_label d_proto d_type d_unordered d_priority d_param].
  assert (0 <= zlen (c_label c)) by (unfold zlen; lia). assert (0 <= zlen (c_proto c)) by (unfold zlen; lia).
  destruct (Z.ltb_spec (1500 - 12) (zlen (c_label c))); [lia|].
  destruct (Z.ltb_spec (1500 - 12 - zlen (c_label c)) (zlen (c_proto c))); [lia|].
  replace (1500 <? 12) with false by reflexivity. f_equal.
  unfold layout. cbn [o_type o_prio o_param o_label o_proto]. rewrite app_nil_r.
  rewrite !(Z.mod_small (zlen _)) by lia. unfold be16, be32. cbn [List.app].
  assert (snd (rel_wire (c_rel c)) = param (c_rel c)) as -> by (destruct (c_rel c); reflexivity).
  assert (Z.lor (rtype_code (fst (rel_wire (c_rel c)))) (if negb (c_ordered c) then 128 else 0) =
          type_byte (c_ordered c) (c_rel c)) as -> by (destruct (c_rel c), (c_ordered c); reflexivity).
  repeat (f_equal; try dlia).
Qed.
Print Assumptions C29_open_written.

(** Exactly when the OPEN message cannot be sent: the process panics. *)
Theorem C29_open_panics_iff : forall c,
  send_open c = Panic <-> zlen (c_label c) + zlen (c_proto c) > 1488.
Proof.
  intro c. unfold send_open, open_write, dcep_of_config. cbn [d_label d_proto].
  assert (0 <= zlen (c_label c)) by (unfold zlen; lia). assert (0 <= zlen (c_proto c)) by (unfold zlen; lia).
  replace (1500 <? 12) with false by reflexivity.
  destruct (Z.ltb_spec (1500 - 12) (zlen (c_label c))); [split; [lia|auto]|].
  destruct (Z.ltb_spec (1500 - 12 - zlen (c_label c)) (zlen (c_proto c))); split; try lia; try discriminate; auto.
Qed.
Print Assumptions C29_open_panics_iff.

(* a label of 1489 letters does it *)
Theorem C29_long_label_refuted : exists c, valid_config c /\ zlen (c_label c) < 65536 /\ send_open c = Panic.
Proof.
  exists (mkConfig (rep 97 1489) true Reliable None []). split; [|split; [reflexivity|apply C29_open_panics_iff; reflexivity]].
  split; [vm_compute; reflexivity|]. split; [reflexivity|cbn; lia].
Qed.

(** ** Reading *)
Ltac natify :=
  change (Z.to_nat 0) with 0%nat; change (Z.to_nat 1) with 1%nat; change (Z.to_nat 2) with 2%nat;
  change (Z.to_nat 3) with 3%nat; change (Z.to_nat 4) with 4%nat; change (Z.to_nat 5) with 5%nat;
  change (Z.to_nat 6) with 6%nat; change (Z.to_nat 7) with 7%nat; change (Z.to_nat 8) with 8%nat;
  change (Z.to_nat 9) with 9%nat; change (Z.to_nat 10) with 10%nat; change (Z.to_nat 11) with 11%nat.

Lemma idx_ok {A} (l : list A) i x r : l = r -> nth_error r (Z.to_nat i) = Some x -> 0 <= i -> idx l i = Ok x.
Proof. intros -> H Hi. unfold idx. destruct (Z.ltb_spec i 0); [lia|]. rewrite H. reflexivity. Qed.

(** The receiver understands a message exactly when it has the RFC layout (anything may follow) with
    UTF-8 strings, and then configures exactly what it says; everything else is refused, and nothing
    panics. *)
Lemma rd_byte t : 0 <= t < 256 -> (0 <? Z.land t 128) = (128 <=? t) /\ Z.land t 127 = t mod 128.
Proof.
  intro H. split.
  - assert (forall n, (n < 256)%nat -> (0 <? Z.land (Z.of_nat n) 128) = (128 <=? Z.of_nat n)) as G.
    { intros n Hn. do 256 (destruct n as [|n]; [reflexivity|]). lia. }
    specialize (G (Z.to_nat t)). rewrite Z2Nat.id in G by lia. apply G. lia.
  - change 127 with (Z.ones 7). rewrite Z.land_ones by lia. reflexivity.
Qed.

Definition msg_config (m : open_msg) : config :=
  mkConfig (o_label m) (o_type m <? 128)
    (let t := o_type m mod 128 in
     if t =? 1 then MaxRetransmits (o_param m mod 65536)
     else if t =? 2 then MaxPacketLifetime (o_param m mod 65536) else Reliable)
    None (o_proto m).

Lemma skipn_app_len {A} (a b : list A) n : n = zlen a -> skipn (Z.to_nat n) (a ++ b) = b.
Proof. intros ->. unfold zlen. rewrite Nat2Z.id, skipn_app, skipn_all, Nat.sub_diag. reflexivity. Qed.
Lemma firstn_app_len {A} (a b : list A) n : n = zlen a -> firstn (Z.to_nat n) (a ++ b) = a.
Proof. intros ->. unfold zlen. rewrite Nat2Z.id, firstn_app, firstn_all, Nat.sub_diag. cbn. apply app_nil_r. Qed.

Theorem C29_open_read : forall m tail, valid_msg m -> recv_open (layout m tail) = Ok (msg_config m).
Proof.
  intros m tail (T & P & Q & L1 & L2 & U1 & U2).
  assert (0 <= zlen (o_label m)) by (unfold zlen; lia). assert (0 <= zlen (o_proto m)) by (unfold zlen; lia).
  assert (zlen (layout m tail) = 12 + zlen (o_label m) + zlen (o_proto m) + zlen tail) as ZL.
  { unfold layout, zlen. rewrite !app_length. cbn [length]. lia. }
  assert (0 <= zlen tail) by (unfold zlen; lia).
  unfold recv_open, open_read. rewrite ZL.
  destruct (Z.ltb_spec (12 + zlen (o_label m) + zlen (o_proto m) + zlen tail) 12); [lia|].
  unfold layout. unfold idx. natify. cbn [Z.ltb Z.compare nth_error List.app bind Z.eqb Pos.eqb negb].
  replace (rd16 (zlen (o_label m) / 256) (zlen (o_label m) mod 256)) with (zlen (o_label m)) by (unfold rd16; dlia).
  replace (rd16 (zlen (o_proto m) / 256) (zlen (o_proto m) mod 256)) with (zlen (o_proto m)) by (unfold rd16; dlia).
  destruct (Z.ltb_spec (12 + zlen (o_label m) + zlen (o_proto m) + zlen tail) (12 + zlen (o_label m) + zlen (o_proto m))); [lia|].
  match goal with |- context [from (?a :: ?b) 12] => set (B := a :: b) end.
  assert (zlen B = 12 + zlen (o_label m) + zlen (o_proto m) + zlen tail) as ZB by exact ZL.
  assert (from B 12 = Ok (o_label m ++ o_proto m ++ tail)) as F1.
  { unfold from. rewrite ZB. destruct (Z.ltb_spec (12 + zlen (o_label m) + zlen (o_proto m) + zlen tail) 12); [lia|].
    cbn [Z.ltb Z.compare orb]. f_equal. }
  rewrite F1. cbn [bind].
  assert (zlen (o_label m ++ o_proto m ++ tail) = zlen (o_label m) + zlen (o_proto m) + zlen tail) as Z2
    by (unfold zlen; rewrite !app_length; lia).
  assert (slice (o_label m ++ o_proto m ++ tail) 0 (zlen (o_label m)) = Ok (o_label m)) as S1.
  { unfold slice. rewrite Z2. destruct (Z.ltb_spec (zlen (o_label m)) 0); [lia|].
    destruct (Z.ltb_spec (zlen (o_label m) + zlen (o_proto m) + zlen tail) (zlen (o_label m))); [lia|].
    cbn [orb Z.ltb Z.compare Z.to_nat skipn]. f_equal. apply firstn_app_len. lia. }
  rewrite S1. cbn [bind]. rewrite U1. cbn [negb].
  assert (from (o_label m ++ o_proto m ++ tail) (zlen (o_label m)) = Ok (o_proto m ++ tail)) as F2.
  { unfold from. rewrite Z2. destruct (Z.ltb_spec (zlen (o_label m)) 0); [lia|].
    destruct (Z.ltb_spec (zlen (o_label m) + zlen (o_proto m) + zlen tail) (zlen (o_label m))); [lia|].
    cbn [orb]. f_equal. apply skipn_app_len. reflexivity. }
  rewrite F2. cbn [bind].
  assert (slice (o_proto m ++ tail) 0 (zlen (o_proto m)) = Ok (o_proto m)) as S2.
  { unfold slice. assert (zlen (o_proto m ++ tail) = zlen (o_proto m) + zlen tail) as -> by (unfold zlen; rewrite app_length; lia).
    destruct (Z.ltb_spec (zlen (o_proto m)) 0); [lia|].
    destruct (Z.ltb_spec (zlen (o_proto m) + zlen tail) (zlen (o_proto m))); [lia|].
    cbn [orb Z.ltb Z.compare Z.to_nat skipn]. f_equal. apply firstn_app_len. lia. }
  rewrite S2. cbn [bind]. rewrite U2. cbn [negb bind]. f_equal.
  unfold config_of_dcep, msg_config. cbn [d_label d_unordered d_type d_param d_proto].
  destruct (rd_byte _ T) as [-> ->]. f_equal.
  - lia.
  - replace (rd32 (o_param m / 16777216) (o_param m / 65536 mod 256) (o_param m / 256 mod 256) (o_param m mod 256)) with (o_param m).
    2: { unfold rd32. clear - Q. Z.div_mod_to_equations. lia. }
    unfold rtype_of. cbv zeta. destruct (o_type m mod 128 =? 1); [reflexivity|]. destruct (o_type m mod 128 =? 2); reflexivity.
Qed.
Print Assumptions C29_open_read.

Lemma split_len {A} (l : list A) n : 0 <= n <= zlen l -> exists a b, l = a ++ b /\ zlen a = n.
Proof.
  intro H. exists (firstn (Z.to_nat n) l), (skipn (Z.to_nat n) l). split; [symmetry; apply firstn_skipn|].
  unfold zlen in *. rewrite firstn_length. lia.
Qed.

Theorem C29_open_refused_otherwise : forall buf, bytes_ok buf ->
  (exists m tail, valid_msg m /\ buf = layout m tail) \/ recv_open buf = Err.
Proof.
  intros buf HB. unfold recv_open, open_read.
  destruct (Z.ltb_spec (zlen buf) 12) as [L|L]; [right; reflexivity|].
  assert (exists b0 b1 b2 b3 b4 b5 b6 b7 b8 b9 b10 b11 rest, buf = b0::b1::b2::b3::b4::b5::b6::b7::b8::b9::b10::b11::rest)
    as (b0&b1&b2&b3&b4&b5&b6&b7&b8&b9&b10&b11&rest&->).
  { unfold zlen in L. do 12 (destruct buf as [|? buf]; [cbn [length] in L; lia|]). do 13 eexists. reflexivity. }
  unfold idx. natify. cbn [Z.ltb Z.compare nth_error bind].
  destruct (Z.eqb_spec b0 3) as [->|N]; [|right; reflexivity]. cbn [negb].
  repeat match goal with H : bytes_ok (_ :: _) |- _ => inversion H; clear H; subst
         | H : Forall byte_ok (_ :: _) |- _ => inversion H; clear H; subst end.
  unfold byte_ok in *.
  set (ll := rd16 b8 b9). set (lp := rd16 b10 b11).
  assert (0 <= ll < 65536) as RL by (unfold ll, rd16; lia). assert (0 <= lp < 65536) as RP by (unfold lp, rd16; lia).
  match goal with |- context [zlen (3 :: ?r) <? _] => assert (zlen (3 :: r) = 12 + zlen rest) as ZB by (unfold zlen; cbn [length]; lia) end.
  rewrite ZB. destruct (Z.ltb_spec (12 + zlen rest) (12 + ll + lp)) as [L2|L2]; [right; reflexivity|].
  match goal with |- context [from ?B 12] => assert (from B 12 = Ok rest) as -> end.
  { unfold from. rewrite ZB. destruct (Z.ltb_spec (12 + zlen rest) 12); [lia|]. reflexivity. }
  cbn [bind].
  destruct (split_len rest ll) as [la [r1 [E1 Z1]]]; [lia|]. subst rest.
  assert (zlen (la ++ r1) = zlen la + zlen r1) as ZA by (unfold zlen; rewrite app_length; lia).
  destruct (split_len r1 lp) as [pr [tl [E2 Z2]]]; [lia|]. subst r1.
  assert (zlen (pr ++ tl) = zlen pr + zlen tl) as ZP by (unfold zlen; rewrite app_length; lia).
  assert (0 <= zlen tl) by (unfold zlen; lia).
  assert (slice (la ++ pr ++ tl) 0 ll = Ok la) as ->.
  { unfold slice. rewrite ZA. destruct (Z.ltb_spec ll 0); [lia|]. destruct (Z.ltb_spec (zlen la + zlen (pr ++ tl)) ll); [lia|].
    cbn [orb Z.ltb Z.compare Z.to_nat skipn]. f_equal. apply firstn_app_len. lia. }
  cbn [bind]. destruct (utf8 la) eqn:U1; [|right; reflexivity]. cbn [negb].
  assert (from (la ++ pr ++ tl) ll = Ok (pr ++ tl)) as ->.
  { unfold from. rewrite ZA. destruct (Z.ltb_spec ll 0); [lia|]. destruct (Z.ltb_spec (zlen la + zlen (pr ++ tl)) ll); [lia|].
    cbn [orb]. f_equal. apply skipn_app_len. lia. }
  cbn [bind].
  assert (slice (pr ++ tl) 0 lp = Ok pr) as ->.
  { unfold slice. rewrite ZP. destruct (Z.ltb_spec lp 0); [lia|]. destruct (Z.ltb_spec (zlen pr + zlen tl) lp); [lia|].
    cbn [orb Z.ltb Z.compare Z.to_nat skipn]. f_equal. apply firstn_app_len. lia. }
  cbn [bind]. destruct (utf8 pr) eqn:U2; [|right; reflexivity]. left.
  exists (mkMsg b1 (rd16 b2 b3) (rd32 b4 b5 b6 b7) la pr), tl. split.
  - unfold valid_msg. cbn [o_type o_prio o_param o_label o_proto]. unfold rd16, rd32. repeat split; try lia; assumption.
  - unfold layout. cbn [o_type o_prio o_param o_label o_proto List.app]. rewrite Z1, Z2. unfold ll, lp, rd16, rd32.
    repeat (f_equal; try (clear - H1 H2 H3 H4 H5 H6 H8 H9 H10 H11 H12 H7; Z.div_mod_to_equations; lia)).
Qed.
Print Assumptions C29_open_refused_otherwise.

(** ** Both together: the peer configures what the sender asked for. *)
Theorem C29_open_round_trip : forall c, valid_config c -> c_negotiated c = None ->
  zlen (c_label c) + zlen (c_proto c) <= 1488 ->
  exists bs, send_open c = Ok bs /\ recv_open bs = Ok c.
Proof.
  intros c V N L. eexists. split; [apply C29_open_written; assumption|]. destruct V as (U1 & U2 & P).
  assert (0 <= zlen (c_label c)) by (unfold zlen; lia). assert (0 <= zlen (c_proto c)) by (unfold zlen; lia).
  rewrite C29_open_read.
  - unfold msg_config. cbn [o_type o_prio o_param o_label o_proto]. destruct c as [la od re ne pr]. cbn in *. subst ne.
    f_equal. destruct od, re; cbn in *; rewrite ?Z.mod_small by lia; reflexivity.
  - unfold valid_msg. cbn [o_type o_prio o_param o_label o_proto].
    split; [destruct (c_ordered c), (c_rel c); cbn; lia|]. repeat split; try lia; assumption.
Qed.
Print Assumptions C29_open_round_trip.

Example round_trip_case : exists bs,
  send_open (mkConfig [104; 105; 195; 165] false (MaxRetransmits 7) None [112]) = Ok bs /\
  recv_open bs = Ok (mkConfig [104; 105; 195; 165] false (MaxRetransmits 7) None [112]).
Proof. apply C29_open_round_trip; [split; [reflexivity|split; [reflexivity|cbn; lia]]|reflexivity|cbn; lia]. Qed.

(** ACK *)
Theorem C29_ack : forall bs, (ack_read bs = Ok tt <-> exists t, bs = 2 :: t) /\ ack_read bs <> Panic /\ ack_write 1 = Ok [2].
Proof.
  intro bs. split; [|split; [|reflexivity]].
  - destruct bs as [|b t]; cbn; [split; [discriminate|intros [t E]; discriminate]|].
    destruct (Z.eqb_spec b 2); cbn; split; try discriminate; intros.
    + subst. eauto. + reflexivity. + destruct H as [t' E]. congruence.
  - destruct bs as [|b t]; cbn; [discriminate|]. destruct (b =? 2); discriminate.
Qed.
Print Assumptions C29_ack.

(* The 32-bit parameter of a peer's message is cut to 16 bits: 65536 retransmissions become none. *)
Theorem C29_reliability_truncated_refuted :
  exists m, valid_msg m /\ o_type m = 1 /\ o_param m = 65536 /\
    recv_open (layout m []) = Ok (mkConfig [] true (MaxRetransmits 0) None []).
Proof.
  exists (mkMsg 1 0 65536 [] []). split; [|split; [reflexivity|split; [reflexivity|reflexivity]]].
  unfold valid_msg. cbn. repeat split; lia.
Qed.

(** C26: the STUN codec. *)
From Verif Require Import Base BaseFacts StunModel StunSpec StunProofs StunProofs2 StunProofs3 StunProofs4.

(** * C26 *)
(** Whatever bytes arrive, parsing returns: a message or an error. *)
Theorem C26_parse_no_panic : forall b, bytes_ok b -> parse b <> Panic.
Proof. exact parse_np. Qed.
Print Assumptions C26_parse_no_panic.

(** What is written is the RFC 5389 layout [wire]: header, attributes, MESSAGE-INTEGRITY, FINGERPRINT. *)
Theorem C26_layout : forall P m pw room,
  prims_ok P -> attrs_ok (m_attrs m) -> zlen (trans_id m) = 12 -> m_method m <> UnknownMethod ->
  zlen (wire P m pw) < 65536 + 20 -> zlen (wire P m pw) <= room -> to_bytes P m pw room = Ok (wire P m pw).
Proof. exact to_bytes_wire. Qed.
Print Assumptions C26_layout.

Lemma items_ok a tid : attrs_ok a -> bytes_ok tid -> zlen tid = 12 -> Forall item_ok (items a tid).
Proof.
  intros (A1 & A2 & A3 & A4 & A5 & A6 & A7 & A8 & A9 & A10 & A11 & A12 & A13) BT T.
  assert (forall ty o, 0 <= ty < 65536 -> all (text_ok 128) o -> Forall item_ok (opt ty (fun v => v) o)) as TX.
  { intros ty o R H. apply opt_ok; [exact R|]. destruct o as [v|]; [|exact I]. destruct H as (B & U & L). cbn. split; [lia|exact B]. }
  assert (forall ty o, 0 <= ty < 65536 -> all addr_ok o -> Forall item_ok (opt ty (xaddr tid) o)) as AX.
  { intros ty o R H. apply opt_ok; [exact R|]. destruct o as [v|]; [|exact I]. cbn in *. apply xaddr_ok; assumption. }
  assert (forall ty (o : option Z), 0 <= ty < 65536 -> Forall item_ok (opt ty be64 o)) as N64.
  { intros ty o R. apply opt_ok; [exact R|]. destruct o as [v|]; cbn [all]; [split; [cbn; lia|apply be64_ok]|exact I]. }
  assert (forall ty (o : option Z), 0 <= ty < 65536 -> Forall item_ok (opt ty be32 o)) as N32.
  { intros ty o R. apply opt_ok; [exact R|]. destruct o as [v|]; cbn [all]; [split; [cbn; lia|apply be32_ok]|exact I]. }
  unfold items. rewrite !Forall_app. spl.
  - apply TX; [lia|exact A1].
  - apply N64; lia.
  - apply N64; lia.
  - apply N32; lia.
  - apply AX; [lia|exact A5].
  - destruct (use_candidate a); [|constructor]. constructor; [|constructor]. split; [cbn; lia|]. split; [cbn; lia|constructor].
  - apply opt_ok; [lia|]. destruct (data a); cbn in *; [tauto|exact I].
  - apply AX; [lia|exact A7].
  - apply AX; [lia|exact A8].
  - apply opt_ok; [lia|]. destruct (channel_number a); cbn [all]; [|exact I]. split; [rewrite zlen_app; cbn; lia|]. apply bytes_ok_app. split; [apply be16_ok|repeat constructor; lia].
  - apply N32; lia.
  - apply TX; [lia|exact A11].
  - apply TX; [lia|exact A12].
  - apply opt_ok; [lia|]. destruct (error_code a) as [[c r]|]; cbn [all] in *; [|exact I]. destruct A13 as (C & B & U & L).
    split; [rewrite zlen_app; change (zlen [0; 0; c / 100; c mod 100]) with 4; lia|]. apply bytes_ok_app. split; [|exact B]. repeat constructor; dlia.
Qed.
Lemma items_no8 a tid : ~ In 8 (map fst (items a tid)).
Proof.
  unfold items. rewrite !map_app, !in_app_iff.
  assert (forall A ty (f : A -> list Z) o, In 8 (map fst (opt ty f o)) -> ty = 8) as O.
  { intros A ty f [v|]; cbn; [|tauto]. intros [E|[]]. exact E. }
  intro H. repeat destruct H as [H|H]; try (apply O in H; discriminate H). destruct (use_candidate a); cbn in H; [|tauto]. destruct H as [H|[]]; discriminate H.
Qed.
Lemma body_bytes l : Forall item_ok l -> bytes_ok (body l).
Proof.
  induction 1 as [|[ty v] l (T & V & B) _ IH]; [constructor|]. rewrite body_cons. apply bytes_ok_app. split; [|exact IH]. unfold tlv. cbn [fst snd].
  apply bytes_ok_app. split; [apply be16_ok|]. apply bytes_ok_app. split; [apply be16_ok|]. apply bytes_ok_app. split; [exact B|].
  unfold rep. induction (Z.to_nat _); cbn [repeat]; constructor; [red; lia|assumption].
Qed.
Lemma wire_bytes P m pw : prims_ok P -> attrs_ok (m_attrs m) -> bytes_ok (trans_id m) -> zlen (trans_id m) = 12 -> bytes_ok (wire P m pw).
Proof.
  intros [PH PC] AO BT T. unfold wire. cbv zeta. pose proof (items_ok _ _ AO BT T) as IO.
  assert (forall n, bytes_ok (header (m_class m) (m_method m) n (trans_id m))) as HO.
  { intro n. unfold header. rewrite !bytes_ok_app. spl; [apply be16_ok|apply be16_ok|repeat constructor; lia|exact BT]. }
  assert (forall ty v, bytes_ok v -> bytes_ok (tlv (ty, v))) as TO.
  { intros ty v B. unfold tlv. cbn [fst snd]. rewrite !bytes_ok_app. spl; [apply be16_ok|apply be16_ok|exact B|]. unfold rep. induction (Z.to_nat _); cbn [repeat]; constructor; [red; lia|assumption]. }
  rewrite !bytes_ok_app. spl; [apply HO|apply body_bytes, IO| |apply TO, be32_ok].
  destruct pw as [p|]; [|constructor]. apply TO, PH.
Qed.

(** What is written is read back: the same method, class, transaction id and attributes, and the integrity check
    passes with a password exactly if it gives the same HMAC (in particular the password used). *)
Theorem C26_round_trip : forall P m pw,
  prims_ok P -> attrs_ok (m_attrs m) -> plain (m_attrs m) -> bytes_ok (trans_id m) -> zlen (trans_id m) = 12 -> m_method m <> UnknownMethod ->
  zlen (wire P m (Some pw)) < 65536 + 20 -> demanded (m_class m) (m_method m) (m_attrs m) -> items (m_attrs m) (trans_id m) <> [] ->
  exists m', parse (wire P m (Some pw)) = Ok m' /\ m_method m' = m_method m /\ m_class m' = m_class m /\ trans_id m' = trans_id m
    /\ same_attrs (m_attrs m') (m_attrs m)
    /\ forall pw', verify P m' pw' = Ok true <->
         let covered := header (m_class m) (m_method m) (zlen (body (items (m_attrs m) (trans_id m))) + 24) (trans_id m) ++ body (items (m_attrs m) (trans_id m)) in
         hmac P pw' covered = hmac P pw covered.
Proof.
  intros P m pw PO AO PL BT T MK SZ DM NE.
  destruct (parse_wire P m (Some pw) PO AO PL BT T MK SZ DM ltac:(discriminate) ltac:(intros _; exact NE)) as (m' & PA & EM & EC & ET & x & EA).
  exists m'. spl; try assumption.
  - rewrite EA. unfold final. cbv zeta. cbn [fst]. unfold same_attrs, set_fingerprint, set_integrity.
    cbn [username message_integrity error_code channel_number lifetime xor_peer_address data realm nonce xor_relayed_address xor_mapped_address software fingerprint priority use_candidate ice_controlled ice_controlling network_cost].
    spl; reflexivity.
  - intro pw'. cbv zeta. set (b := body (items (m_attrs m) (trans_id m))). set (cov := header (m_class m) (m_method m) (zlen b + 24) (trans_id m) ++ b).
    pose proof (wire_bytes P m (Some pw) PO AO BT T) as WB. unfold wire in WB, PA. cbv zeta in WB, PA. fold b in WB, PA. fold cov in WB, PA.
    set (mac := hmac P pw cov) in *. set (n := zlen b + zlen (tlv (8, mac)) + 8) in *. set (h := header (m_class m) (m_method m) n (trans_id m)) in *.
    match type of PA with parse (h ++ b ++ tlv (8, mac) ++ ?t) = _ => set (tail := t) in * end.
    assert (zlen mac = 20) as LM by (destruct PO as [PH _]; apply PH).
    assert (tlv (8, mac) ++ tail = be16 8 ++ be16 (zlen mac) ++ mac ++ tail) as ET2.
    { unfold tlv. cbn [fst snd]. rewrite LM. change (rep 0 (padding 20)) with (@nil Z). rewrite app_nil_r, <- !app_assoc. reflexivity. }
    assert (exists l2, Body l2 tail) as [l2 HT].
    { unfold tail. eexists [(_, _)]. pose proof (body_Body [(32808, be32 (Z.lxor (crc P (h ++ b ++ tlv (8, mac))) 1398035790))]) as Q.
      unfold body in Q. cbn [map concat] in Q. rewrite app_nil_r in Q. apply Q. constructor; [|constructor]. split; [lia|]. split; [cbn; lia|apply be32_ok]. }
    assert (zlen h = 20) as LH by (apply header_len; exact T).
    assert (Body (items (m_attrs m) (trans_id m)) b) as HB.
    { apply body_Body. pose proof (items_ok _ _ AO BT T) as IO. revert IO. clear. intro IO. induction IO as [|[ty v] l (A & B & C) _ IH]; constructor; [cbn in *; auto|exact IH]. }
    assert (0 < zlen b) as PB.
    { unfold b. destruct (items (m_attrs m) (trans_id m)) as [|y l]; [congruence|]. rewrite body_cons, zlen_app. pose proof (tlv_pos y). pose proof (zlen_nonneg (body l)). lia. }
    rewrite (verify_some P _ m' pw' h b tail _ mac l2 WB PA ltac:(rewrite <- ET2; reflexivity) LH HB HT (items_no8 _ _) ltac:(lia) ltac:(rewrite LM; reflexivity)).
    replace (zlen b =? 0) with false by lia.
    assert (firstn 2 h ++ be16 (zlen b + 24) ++ skipn 4 h ++ b = cov) as -> by reflexivity.
    split.
    + intro E. assert (eqb_bytes (hmac P pw' cov) mac = true) as E2 by congruence. apply eqb_bytes_eq in E2. exact E2.
    + intro E. f_equal. apply eqb_bytes_eq. exact E.
Qed.
Print Assumptions C26_round_trip.
(** The messages the ICE agent sends are such messages. *)
Lemma binding_attrs user tid c tie prio use : text_ok 128 user -> 0 <= tie < U64 -> 0 <= prio < U32 ->
  attrs_ok (m_attrs (binding_request user tid c tie prio use)) /\ plain (m_attrs (binding_request user tid c tie prio use)).
Proof. intros U T R. destruct U as (U1 & U2 & U3).
  destruct c, use; unfold attrs_ok, plain, binding_request; cbn [m_attrs set_controlled set_controlling set_use set_priority set_username attrs0 all username message_integrity error_code channel_number lifetime xor_peer_address data realm nonce xor_relayed_address xor_mapped_address software fingerprint priority use_candidate ice_controlled ice_controlling network_cost];
    unfold text_ok; spl; auto; lia. Qed.
Theorem C26_binding_request : forall P lfrag rfrag tid c tie prio use pw,
  prims_ok P -> text_ok 128 (rfrag ++ 58 :: lfrag) -> ~ In 58 rfrag -> lfrag <> [] -> bytes_ok tid -> zlen tid = 12 -> 0 <= tie < U64 -> 0 <= prio < U32 ->
  exists b m, to_bytes P (binding_request (rfrag ++ 58 :: lfrag) tid c tie prio use) (Some pw) 1500 = Ok b /\ parse b = Ok m /\ verify P m pw = Ok true
    /\ m_method m = Binding /\ m_class m = Request /\ trans_id m = tid /\ split_username (m_attrs m) = Some (rfrag, lfrag)
    /\ priority (m_attrs m) = Some prio /\ use_candidate (m_attrs m) = use
    /\ ice_controlling (m_attrs m) = (if c then Some tie else None) /\ ice_controlled (m_attrs m) = (if c then None else Some tie).
Proof.
  intros P lfrag rfrag tid c tie prio use pw PO TX NI NL BT T TI PR. set (user := rfrag ++ 58 :: lfrag) in *.
  destruct (binding_attrs user tid c tie prio use TX TI PR) as [AO PL]. set (m := binding_request user tid c tie prio use) in *.
  assert (trans_id m = tid) as ET by reflexivity.
  assert (zlen (wire P m (Some pw)) <= 1500 /\ items (m_attrs m) (trans_id m) <> []) as [SZ NE].
  { rewrite zlen_wire by assumption. rewrite <- (padded_len_spec _ _ AO). destruct TX as (B & U & L). pose proof (zlen_nonneg user).
    assert (0 <= calculate_pad (zlen user) < 4) by (unfold calculate_pad; dlia).
    split; [unfold padded_len, m, binding_request; destruct c, use; cbn [m_attrs set_controlled set_controlling set_use set_priority set_username attrs0 olen username ice_controlled ice_controlling priority xor_mapped_address use_candidate xor_peer_address xor_relayed_address data channel_number lifetime realm nonce error_code]; unfold str_len; lia|].
    unfold m, binding_request; destruct c, use; discriminate. }
  assert (demanded (m_class m) (m_method m) (m_attrs m)) as DM.
  { unfold m, binding_request. destruct c, use; cbn; (split; [exists rfrag, lfrag; spl; [reflexivity|exact NI|exact NL]|discriminate]). }
  destruct (C26_round_trip P m pw PO AO PL BT T ltac:(discriminate) ltac:(lia) DM NE) as (m' & PA & E1 & E2 & E3 & SA & V).
  exists (wire P m (Some pw)), m'. spl; try assumption.
  - apply C26_layout; try assumption; [discriminate|lia].
  - apply V. reflexivity.
  - destruct SA as (S1 & _). unfold split_username. rewrite S1. unfold m, binding_request. destruct c, use; cbn [m_attrs set_controlled set_controlling set_use set_priority set_username attrs0 username];
      unfold user; rewrite split_colon_spec by exact NI; destruct lfrag; congruence.
  - destruct SA as (_ & _ & _ & _ & _ & _ & _ & _ & _ & _ & S & _). rewrite S. unfold m, binding_request. destruct c, use; reflexivity.
  - destruct SA as (_ & _ & _ & _ & _ & _ & _ & _ & _ & _ & _ & S & _). rewrite S. unfold m, binding_request. destruct c, use; reflexivity.
  - destruct SA as (_ & _ & _ & _ & _ & _ & _ & _ & _ & _ & _ & _ & _ & S & _). rewrite S. unfold m, binding_request. destruct c, use; reflexivity.
  - destruct SA as (_ & _ & _ & _ & _ & _ & _ & _ & _ & _ & _ & _ & S & _). rewrite S. unfold m, binding_request. destruct c, use; reflexivity.
Qed.
Print Assumptions C26_binding_request.
Theorem C26_binding_replies : forall P tid ad pw, prims_ok P -> bytes_ok tid -> zlen tid = 12 -> addr_ok ad ->
  (exists b m, to_bytes P (binding_reply tid ad) (Some pw) 1500 = Ok b /\ parse b = Ok m /\ verify P m pw = Ok true
    /\ m_method m = Binding /\ m_class m = Success /\ trans_id m = tid /\ xor_mapped_address (m_attrs m) = Some ad) /\
  (exists b m, to_bytes P (binding_role_conflict_reply tid) (Some pw) 1500 = Ok b /\ parse b = Ok m /\ verify P m pw = Ok true
    /\ m_method m = Binding /\ m_class m = Failure /\ trans_id m = tid /\ exists reason, error_code (m_attrs m) = Some (487, reason)).
Proof.
  intros P tid ad pw PO BT T AD.
  assert (attrs_ok (m_attrs (binding_reply tid ad))) as A1 by (unfold attrs_ok; cbn; spl; auto).
  assert (attrs_ok (m_attrs (binding_role_conflict_reply tid))) as A2.
  { unfold attrs_ok, binding_role_conflict_reply. cbn [m_attrs set_error attrs0 all username message_integrity error_code channel_number lifetime xor_peer_address data realm nonce xor_relayed_address xor_mapped_address software fingerprint priority use_candidate ice_controlled ice_controlling network_cost].
    unfold text_ok. spl; try exact I; try lia; [repeat (constructor; [red; lia|]); constructor|reflexivity|vm_compute; congruence]. }
  assert (zlen (wire P (binding_reply tid ad) (Some pw)) <= 1500) as L1.
  { rewrite zlen_wire by assumption. rewrite <- (padded_len_spec _ _ A1). destruct ad; cbn; lia. }
  assert (zlen (wire P (binding_role_conflict_reply tid) (Some pw)) <= 1500) as L2.
  { rewrite zlen_wire by assumption. rewrite <- (padded_len_spec _ _ A2). cbn; lia. }
  split.
  - destruct (C26_round_trip P (binding_reply tid ad) pw PO A1 ltac:(unfold plain; cbn; auto) BT T ltac:(discriminate) ltac:(lia) ltac:(cbn; discriminate) ltac:(discriminate)) as (m' & PA & E1 & E2 & E3 & SA & V).
    exists (wire P (binding_reply tid ad) (Some pw)), m'. spl; try assumption; [apply C26_layout; try assumption; [discriminate|lia]|apply V; reflexivity|].
    destruct SA as (_ & _ & _ & _ & _ & _ & _ & _ & _ & S & _). rewrite S. reflexivity.
  - destruct (C26_round_trip P (binding_role_conflict_reply tid) pw PO A2 ltac:(unfold plain; cbn; auto) BT T ltac:(discriminate) ltac:(lia) I ltac:(discriminate)) as (m' & PA & E1 & E2 & E3 & SA & V).
    exists (wire P (binding_role_conflict_reply tid) (Some pw)), m'. spl; try assumption; [apply C26_layout; try assumption; [discriminate|lia]|apply V; reflexivity|].
    destruct SA as (_ & S & _). rewrite S. eexists. reflexivity.
Qed.
Print Assumptions C26_binding_replies.

(** Every accepted message is a header (magic cookie, the length of the rest, a multiple of four) and attributes. *)
Theorem C26_accepted_shape : forall b m, bytes_ok b -> parse b = Ok m -> exists hdr l bytes,
  b = hdr ++ bytes /\ zlen hdr = 20 /\ Body l bytes /\ slice hdr 2 4 = Ok (be16 (zlen bytes)) /\ slice hdr 4 8 = Ok [33; 18; 164; 66] /\ slice hdr 8 20 = Ok (trans_id m).
Proof.
  intros b m BO H. destruct (parse_inv b m BO H) as (a & mio & E & L & _ & _ & AP & _). 
  destruct (attrs_parse_Body _ _ _ _ _ _ _ _ (bytes_ok_skipn 20 _ BO) AP) as [l HB].
  exists (firstn 20 b), l, (skipn 20 b). split; [exact E|]. split; [exact L|]. split; [exact HB|].
  unfold parse in H. assert (20 <= zlen b) as L20 by (rewrite zlen_firstn in L; lia). replace (zlen b <? 4) with false in H by lia.
  destruct (idx_ok b 0 ltac:(lia)) as (b0 & I0 & J0). destruct (idx_ok b 1 ltac:(lia)) as (b1 & I1 & J1).
  destruct (idx_ok b 2 ltac:(lia)) as (b2 & I2 & J2). destruct (idx_ok b 3 ltac:(lia)) as (b3 & I3 & J3).
  rewrite I0, I1, I2, I3 in H. cbn [bind] in H. pose proof (idx_byte _ _ _ BO I2) as B2. pose proof (idx_byte _ _ _ BO I3) as B3. red in B2, B3.
  assert (Z.lor (Z.shiftl b2 8) b3 = b2 * 256 + b3) as EL.
  { rewrite (lor_add _ _ 8); [rewrite Z.shiftl_mul_pow2 by lia; reflexivity|lia|cbn; lia|rewrite Z.shiftl_mul_pow2 by lia; apply Z.mod_mul; cbn; lia]. }
  rewrite EL in H. destruct (0 <? Z.land _ 3); [discriminate|]. destruct (b2 * 256 + b3 + 20 =? zlen b) eqn:LE; cbn [negb] in H; [|discriminate].
  destruct (slice b 4 8) as [mg| |] eqn:S4; cbn [bind] in H; try discriminate. destruct (eqb_bytes mg MAGIC) eqn:EQ; cbn [negb] in H; [|discriminate].
  apply eqb_bytes_eq in EQ. subst mg. destruct (slice b 8 20) as [td| |] eqn:S8; cbn [bind] in H; try discriminate.
  assert (trans_id m = td) as ->.
  { destruct (from b 20); cbn [bind] in H; try discriminate. destruct (attrs_parse _ _ td _ _ _ _) as [[a' mi']| |]; cbn [bind] in H; try discriminate.
    destruct (if 0 <? mi' then _ else _) as [[il ig]| |]; cbn [bind] in H; try discriminate.
    destruct (is_binding _); [destruct (class_from_typ _)|]; repeat match type of H with (if ?c then _ else _) = _ => destruct c end; inversion H; reflexivity. }
  assert (forall i j v, 0 <= i <= j -> j <= 20 -> slice b i j = Ok v -> slice (firstn 20 b) i j = Ok v) as SF.
  { intros i j v R1 R2 S. rewrite slice_ok in S by lia. rewrite slice_ok by lia. rewrite <- S. f_equal. rewrite skipn_firstn_comm, firstn_firstn. f_equal. lia. }
  spl; [|apply SF; [lia|lia|exact S4]|apply SF; [lia|lia|exact S8]].
  apply SF; [lia|lia|]. rewrite zlen_skipn. replace (Z.max 0 (zlen b - Z.of_nat 20)) with (b2 * 256 + b3) by lia.
  rewrite slice_ok by lia. destruct b as [|c0 [|c1 [|c2 [|c3 w]]]]; try discriminate. cbn in I2, I3. inversion I2; inversion I3; subst. unfold be16. replace ((b2 * 256 + b3) / 256 mod 256) with b2 by dlia. replace ((b2 * 256 + b3) mod 256) with b3 by dlia. reflexivity.
Qed.
Print Assumptions C26_accepted_shape.

(** The integrity check of an accepted message with a MESSAGE-INTEGRITY attribute: it holds exactly if the value is the
    HMAC of the bytes before that (first) attribute, with the header's length adjusted to end after it; no other byte of the
    message matters, and without the attribute it never holds. *)
Theorem C26_verify_exact : forall P b m pw hdr l1 before mac l2 after, bytes_ok b -> parse b = Ok m -> zlen hdr = 20 ->
  b = hdr ++ before ++ be16 8 ++ be16 (zlen mac) ++ mac ++ after -> Body l1 before -> ~ In 8 (map fst l1) -> Body l2 after -> l1 <> [] -> zlen mac = 20 ->
  verify P m pw = Ok true <-> hmac P pw (firstn 2 hdr ++ be16 (zlen before + 24) ++ skipn 4 hdr ++ before) = mac.
Proof.
  intros P b m pw hdr l1 before mac l2 after BO H L E B1 NI B2 NE LM.
  rewrite (verify_some P b m pw hdr before after l1 mac l2 BO H E L B1 B2 NI ltac:(lia) ltac:(rewrite LM; reflexivity)).
  pose proof (Body_nil_len _ _ B1 NE). replace (zlen before =? 0) with false by lia. rewrite <- eqb_bytes_eq. split; congruence.
Qed.
Print Assumptions C26_verify_exact.
Theorem C26_verify_without_integrity : forall P b m pw hdr bytes l, bytes_ok b -> parse b = Ok m -> b = hdr ++ bytes -> zlen hdr = 20 -> Body l bytes ->
  ~ In 8 (map fst l) -> verify P m pw = Ok false.
Proof. exact verify_none. Qed.
Print Assumptions C26_verify_without_integrity.

(** "Verifying never panics" is false: with MESSAGE-INTEGRITY as the first attribute the covered prefix is not recorded. *)
Theorem C26_verify_panics_refuted : exists b m, bytes_ok b /\ parse b = Ok m /\ m_method m = Binding /\ m_class m = Failure /\
  forall P pw, verify P m pw = Panic.
Proof.
  exists (be16 273 ++ be16 24 ++ [33; 18; 164; 66] ++ rep 7 12 ++ be16 8 ++ be16 20 ++ rep 0 20). eexists. split.
  - repeat (constructor; [red; vm_compute; split; congruence|]); constructor.
  - split; [vm_compute; reflexivity|]. split; [reflexivity|]. split; [reflexivity|]. intros P pw. reflexivity.
Qed.
Print Assumptions C26_verify_panics_refuted.
(** It happens for no other accepted message. *)
Theorem C26_verify_panics_only : forall P b m pw hdr l1 before mac l2 after, bytes_ok b -> parse b = Ok m -> zlen hdr = 20 ->
  b = hdr ++ before ++ be16 8 ++ be16 (zlen mac) ++ mac ++ after -> Body l1 before -> ~ In 8 (map fst l1) -> Body l2 after -> zlen mac = 20 ->
  verify P m pw = Panic <-> l1 = [].
Proof.
  intros P b m pw hdr l1 before mac l2 after BO H L E B1 NI B2 LM.
  rewrite (verify_some P b m pw hdr before after l1 mac l2 BO H E L B1 B2 NI ltac:(lia) ltac:(rewrite LM; reflexivity)).
  split.
  - intro Q. destruct l1 as [|x l1]; [reflexivity|]. pose proof (Body_nil_len _ _ B1 ltac:(discriminate)). replace (zlen before =? 0) with false in Q by lia. discriminate.
  - intros ->. inversion B1; subst. reflexivity.
Qed.
Print Assumptions C26_verify_panics_only.

(** "Every attribute of a message is written" is false of SOFTWARE and the network cost. *)
Theorem C26_software_not_written_refuted : exists a, software a <> None /\ forall tid, attrs_to_bytes a tid = attrs_to_bytes attrs0 tid.
Proof. exists (set_software (Some [65]) attrs0). split; [discriminate|]. intro. reflexivity. Qed.
Print Assumptions C26_software_not_written_refuted.
(** "The FINGERPRINT is checked" is false: of two messages that differ in the fingerprint only (so at least one is wrong)
    both are accepted. *)
Theorem C26_fingerprint_unchecked_refuted : exists pre m1 m2, bytes_ok pre /\ parse (pre ++ be32 1) = Ok m1 /\ parse (pre ++ be32 2) = Ok m2.
Proof.
  exists (be16 17 ++ be16 8 ++ [33; 18; 164; 66] ++ rep 7 12 ++ be16 32808 ++ be16 4). do 2 eexists.
  split; [repeat (constructor; [red; vm_compute; split; congruence|]); constructor|]. split; vm_compute; reflexivity.
Qed.
Print Assumptions C26_fingerprint_unchecked_refuted.
(** An address attribute may lie about its length: the parser reads the address from whatever bytes follow. *)
Theorem C26_address_past_attribute_refuted : exists b m a, bytes_ok b /\ parse b = Ok m /\ xor_peer_address (m_attrs m) = Some a /\
  exists hdr l bytes, b = hdr ++ bytes /\ zlen hdr = 20 /\ Body l bytes /\ In (18, []) l.
Proof.
  exists (be16 17 ++ be16 16 ++ [33; 18; 164; 66] ++ rep 7 12 ++ be16 18 ++ be16 0 ++ be16 1 ++ be16 8 ++ rep 0 8).
  eexists. eexists. split; [repeat (constructor; [red; vm_compute; split; congruence|]); constructor|]. split; [vm_compute; reflexivity|]. split; [reflexivity|].
  exists (be16 17 ++ be16 16 ++ [33; 18; 164; 66] ++ rep 7 12), [(18, []); (1, rep 0 8)], (be16 18 ++ be16 0 ++ be16 1 ++ be16 8 ++ rep 0 8).
  split; [reflexivity|]. split; [reflexivity|]. split; [|left; reflexivity].
  apply (BCons 18 [] [] [(1, rep 0 8)] (be16 1 ++ be16 8 ++ rep 0 8)); [lia|reflexivity|constructor|reflexivity|].
  apply (BCons 1 (rep 0 8) [] [] []); [lia|reflexivity|repeat (constructor; [red; lia|]); constructor|reflexivity|constructor].
Qed.
Print Assumptions C26_address_past_attribute_refuted.
(** A user name of more than 128 bytes is refused by the writer (RFC 5389 allows 512 bytes). *)
Theorem C26_long_username_refuted : exists user, utf8 user = true /\ zlen user <= 512 /\ forall P tid c tie prio use pw room,
  to_bytes P (binding_request user tid c tie prio use) pw room = Err.
Proof.
  exists (rep 97 129). split; [vm_compute; reflexivity|]. split; [vm_compute; congruence|]. intros. destruct c, use; vm_compute; reflexivity.
Qed.
Print Assumptions C26_long_username_refuted.

(** Concrete cases: an HMAC and CRC (constant), a request with USE-CANDIDATE. *)
Definition toy : prims := mkPrims (fun k b => rep ((zlen k + fold_left Z.add b 0) mod 256) 20) (fun b => fold_left (fun x y => (x * 3 + y) mod 4294967296) b 0).
Example C26_case : exists b m, to_bytes toy (binding_request [97; 58; 98] (rep 7 12) true 77 1845501695 true) (Some [1; 2]) 1500 = Ok b /\ zlen b = 84 /\
  parse b = Ok m /\ verify toy m [1; 2] = Ok true /\ verify toy m [1; 2; 3] = Ok false /\ use_candidate (m_attrs m) = true.
Proof. eexists. eexists. split; [vm_compute; reflexivity|]. split; [reflexivity|]. split; [vm_compute; reflexivity|]. vm_compute. auto. Qed.
Example C26_case_prims : prims_ok toy.
Proof.
  split.
  - intros k b. split; [reflexivity|]. cbn. repeat (constructor; [red; dlia|]). constructor.
  - intro b. cbn [crc toy]. unfold U32. assert (forall l x, 0 <= x < 4294967296 -> 0 <= fold_left (fun x y => (x * 3 + y) mod 4294967296) l x < 4294967296) as G.
    { induction l as [|y l IH]; intros x H; cbn [fold_left]; [exact H|]. apply IH. dlia. }
    apply G. lia.
Qed.

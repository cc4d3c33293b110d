(** C32 for AV1. *)
From Verif Require Import Base BaseFacts BufRxSpec Vp8Model Vp8Spec Vp8Proofs Av1Model Av1Spec Av1Proofs Av1Proofs2 Av1Proofs3 Av1Proofs4.

(** A temporal unit handed to the packetizer comes out of the depacketizer unit by unit, every unit with its size field, whatever the MTU and
    whatever was received before; every payload fits, the first is a head, and the frame is a key frame iff it starts with a sequence header. *)
Theorem C32_av1_round_trip : forall mtu os last s, Forall aobu_ok os -> existsb sendable os = true -> 2 <= mtu <= 2 ^ 62 ->
  exists pkts first rest s' key, av1_packetize mtu (frame_of os last) = Ok pkts /\ pkts = first :: rest /\ fit mtu pkts /\
    av1_head first = true /\ feed av1_dep s pkts [] None = (s', Some (delivered os, Some key)) /\
    key = match filter sendable os with o :: _ => a_type o =? 1 | [] => false end /\ av1_keyframe first = key /\ Forall (fun p => av1_keyframe p = false) rest.
Proof. intros mtu os last s F X M. exact (av1_round mtu os last s F X M). Qed.
Print Assumptions C32_av1_round_trip.
(** A sequence header and a frame with an extension, cut into payloads of five bytes. *)
Definition ex_os : list aobu := [mkA 2 None false false []; mkA 1 None false false [10; 11]; mkA 6 (Some 40) false false [1; 2; 3; 4; 5; 6; 7]].
Example av1_case : Forall aobu_ok ex_os /\ existsb sendable ex_os = true /\
  frame_of ex_os true = [18; 0; 10; 2; 10; 11; 54; 40; 7; 1; 2; 3; 4; 5; 6; 7] /\
  av1_packetize 5 (frame_of ex_os true) = Ok [[24; 8; 10; 11] ; [80; 52; 40; 1; 2]; [208; 3; 4; 5; 6]; [144; 7]] /\
  av1_packetize 7 (frame_of ex_os true) = Ok [[104; 3; 8; 10; 11; 52; 40]; [208; 1; 2; 3; 4; 5; 6]; [144; 7]] /\
  delivered ex_os = [10; 2; 10; 11; 54; 40; 7; 1; 2; 3; 4; 5; 6; 7].
Proof.
  split; [|repeat split; vm_compute; reflexivity]. unfold ex_os. repeat constructor; cbn; unfold byte_ok; try lia; repeat constructor; cbn; unfold byte_ok; lia.
Qed.

(** Payloads of any sender that follows the format: split anywhere, grouped in any way, with or without element counts and size fields. *)
Theorem C32_av1_depacketize : forall ks us s, Forall pkt_ok ks -> ks <> [] ->
  assemble None ks = Some (map (fun u : bool * aobu => enc_obu (fst u) (snd u)) us, None) -> Forall (fun u => aobu_ok (snd u)) us ->
  exists s', feed av1_dep s (map enc_pkt ks) [] None = (s', Some (delivered (map snd us), Some (existsb k_n ks))).
Proof.
  intros ks us s K NE A U. destruct (feed_pkts ks None s [] None us K I A U NE) as (s' & E). exists s'. rewrite E. cbn [app]. rewrite outs_delivered, orb_false_r. reflexivity.
Qed.
Print Assumptions C32_av1_depacketize.
(** Three elements without a count, the last going on in the next payload; one unit carries its size. *)
Definition ex_ks : list apkt := [mkK false true true 0 [[8; 10; 11]; [50; 2; 7; 7]; [48; 1]]; mkK true false false 2 [[2; 3]; [40; 9]]].
Example av1_sender_case : Forall pkt_ok ex_ks /\
  assemble None ex_ks = Some (map (fun u : bool * aobu => enc_obu (fst u) (snd u))
    [(false, mkA 1 None false false [10; 11]); (true, mkA 6 None false false [7; 7]); (false, mkA 6 None false false [1; 2; 3]); (false, mkA 5 None false false [9])], None) /\
  snd (feed av1_dep avd0 (map enc_pkt ex_ks) [] None) = Some ([10; 2; 10; 11; 50; 2; 7; 7; 50; 3; 1; 2; 3; 42; 1; 9], Some true).
Proof.
  split; [|split; vm_compute; reflexivity]. unfold ex_ks. repeat constructor; cbn; unfold byte_ok; try lia; try discriminate; try (left; reflexivity); try (right; split; reflexivity || lia); try congruence; unfold zlen; cbn; lia.
Qed.

(** The packetizer takes any bytes: it refuses or cuts them into payloads that fit. *)
Theorem C32_av1_packetize_never_panics : forall mtu payload, mtu <= 2 ^ 62 ->
  match av1_packetize mtu payload with Panic => False | Err => True | Ok pkts => pkts = [] \/ fit mtu pkts end.
Proof.
  intros mtu payload M. unfold av1_packetize. destruct ((zlen payload =? 0) || (mtu <=? 1)) eqn:Q; [left; reflexivity|]. apply orb_false_elim in Q. destruct Q as (_ & Q).
  destruct (parse_obus payload) as [obus| |] eqn:E; cbn [bind]; [|exact I|].
  - destruct obus as [|o obus]; [left; reflexivity|]. destruct (emit_ok mtu (o :: obus) ltac:(discriminate) ltac:(lia)) as (ps & NE & -> & P & _). right. destruct ps as [|p ps]; [congruence|]. split; [discriminate|].
    assert (forall n q, planned (o :: obus) (mtu - 1) q -> 0 < zlen (enc_pkt (kp (o :: obus) n q)) <= mtu) as F.
    { intros n q H. split; [unfold enc_pkt; rewrite zlen_cons; match goal with |- context [zlen ?l + 1] => pose proof (zlen_nonneg l) | |- context [1 + zlen ?l] => pose proof (zlen_nonneg l) end; lia|].
      rewrite (enc_pkt_len _ (mtu - 1)) by exact H. destruct H as (_ & _ & _ & _ & _ & _ & _ & H). lia. }
    inversion P as [|? ? P1 P2]; subst. cbn [plan_pkts map]. constructor; [apply F; exact P1|]. apply Forall_forall. intros x IN. apply in_map_iff in IN. destruct IN as (k & <- & IN). apply in_map_iff in IN. destruct IN as (q & <- & IN).
    apply F. rewrite Forall_forall in P2. apply P2, IN.
  - exfalso. revert E. unfold parse_obus. generalize (length payload). intro n. revert payload. induction n as [|n IH]; intros payload E; cbn [parse_obus_] in E; [discriminate|]. destruct payload as [|h r]; [discriminate|].
    destruct (if bit h 4 then _ else _) as [[x r2]|]; [|discriminate]. destruct (if bit h 2 then _ else _) as [[pl r3]|]; [|discriminate]. specialize (IH r3). destruct (parse_obus_ n r3); cbn [bind] in E; [discriminate|discriminate|]. exact (IH eq_refl).
Qed.
Print Assumptions C32_av1_packetize_never_panics.
(** An MTU of one byte leaves no room beside the aggregation header: nothing is sent, without an error. *)
Theorem C32_av1_small_mtu_drops : forall mtu payload, mtu <= 1 -> av1_packetize mtu payload = Ok [].
Proof. intros mtu payload M. unfold av1_packetize. destruct (mtu <=? 1) eqn:Q; [|lia]. rewrite orb_true_r. reflexivity. Qed.
Print Assumptions C32_av1_small_mtu_drops.

Lemma parse_no_panic l : parse_obus l <> Panic.
Proof.
  unfold parse_obus. generalize (length l). intro n. revert l. induction n as [|n IH]; intros l E; cbn [parse_obus_] in E; [discriminate|]. destruct l as [|h r]; [discriminate|].
  destruct (if bit h 4 then _ else _) as [[x r2]|]; [|discriminate]. destruct (if bit h 2 then _ else _) as [[pl r3]|]; [|discriminate]. specialize (IH r3). destruct (parse_obus_ n r3); cbn [bind] in E; [discriminate|discriminate|]. exact (IH eq_refl).
Qed.
Lemma loop_sound : forall fuel z y count idx s r out, match snd (av1_loop fuel z y count idx s r out) with Panic => False | Err => True | Ok o => exists add, o = out ++ add end.
Proof.
  induction fuel as [|fuel IH]; intros z y count idx s r out; cbn [av1_loop]; [exists []; rewrite app_nil_r; reflexivity|]. destruct r as [|b r]; [exists []; rewrite app_nil_r; reflexivity|].
  set (q := if (count =? 0) || _ then _ else _). destruct q as [[[n last] r2]|]; [|exact I]. destruct (n =? 0); [exact I|]. destruct (zlen r2 <? n); [exact I|].
  destruct ((idx =? 0) && z && (zlen (ob s) =? 0)); [apply IH|]. cbn [ob olen].
  destruct (last && y); [exists []; rewrite app_nil_r; reflexivity|].
  destruct (parse_obus (ob s ++ firstn (Z.to_nat n) r2)) as [os| |] eqn:E; [|exact I|exact (parse_no_panic _ E)]. destruct os as [|o os]; [apply IH|]. cbv zeta.
  match goal with |- context [if ?c then (mkAv _ _, Err) else _] => destruct c; [exact I|] end. destruct last; [eexists; cbn [snd]; rewrite <- app_assoc; reflexivity|].
  match goal with |- context [av1_loop fuel z y count (idx + 1) avd0 ?a ?b] => specialize (IH z y count (idx + 1) avd0 a b); destruct (snd (av1_loop fuel z y count (idx + 1) avd0 a b)) as [o'| |] end; [|exact I|exact IH].
  destruct IH as (add & ->). eexists. rewrite <- !app_assoc. reflexivity.
Qed.
(** Whatever arrives, in any state: no panic, and what was delivered before stays. *)
Theorem C32_av1_never_panics : forall s packet out x,
  match snd (av1_depacketize s packet out x) with
  | Panic => False | Err => True
  | Ok (o, key) => (exists add, o = out ++ add) /\ key = (av1_keyframe packet || match x with Some k => k | None => false end)
  end.
Proof.
  intros s packet out x. unfold av1_depacketize. destruct packet as [|a r]; [exact I|].
  set (s0 := if negb (bit a 128) || bit a 8 then avd0 else s). pose proof (loop_sound (length r) (bit a 128) (bit a 64) (Z.shiftr (Z.land a 48) 4) 0 s0 r out) as L.
  destruct (av1_loop _ _ _ _ _ _ _ _) as [s' [o| |]]; cbn [snd] in *; auto.
Qed.
Print Assumptions C32_av1_never_panics.

(** A fragment whose beginning is missing is left out; the rest of the payload is used. *)
Theorem C32_av1_lost_beginning : forall e es us w y s, ob s = [] -> olen s = 0 ->
  pkt_ok (mkK true y false w (e :: es)) -> es <> [] -> (if y then removelast es else es) = map (fun u : bool * aobu => enc_obu (fst u) (snd u)) us -> Forall (fun u => aobu_ok (snd u)) us ->
  exists s', av1_dep s (enc_pkt (mkK true y false w (e :: es))) [] None = (s', Some (delivered (map snd us), Some false)).
Proof.
  intros e es us w y s OB OL (_ & F & W & _) NE E U. cbn [k_elems k_w] in F, W. inversion F as [|? ? (F1 & F2 & F3) F4]; subst.
  unfold av1_dep, enc_pkt. cbn [k_z k_y k_n k_w k_elems]. change (b2z true * 128 + b2z y * 64 + w * 16 + b2z false * 8) with (ahead true y false w).
  assert (0 <= w < 4) as WB by (pose proof (zlen_nonneg (e :: es)); lia). destruct (ahead_facts true y false w WB) as (H1 & H2 & H3 & H4 & _). unfold av1_depacketize. rewrite H1, H2, H3, H4. cbn [negb orb].
  assert (s = avd0) as -> by (destruct s as [b l]; cbn [ob olen] in *; subst; reflexivity).
  pose proof (enc_elems_pos (w =? 0) (e :: es) ltac:(discriminate) ltac:(constructor; [exact F1|eapply Forall_impl; [|exact F4]; intros ? (? & _); assumption])) as EP.
  rewrite enc_elems_cons by exact NE. rewrite enc_elems_cons in EP by exact NE.
  set (rest := enc_elems (w =? 0) es). fold rest in EP.
  assert (1 <= zlen rest) as RP by (apply enc_elems_pos; [exact NE|eapply Forall_impl; [|exact F4]; intros ? (? & _); assumption]).
  assert (1 <= zlen e) as LE by (destruct e; [congruence|]; rewrite zlen_cons; pose proof (zlen_nonneg e); lia).
  assert (1 <= zlen es) as LES by (destruct es; [congruence|]; rewrite zlen_cons; pose proof (zlen_nonneg es); lia).
  destruct (length (leb128 (zlen e) ++ e ++ rest)) as [|fuel] eqn:LF; [exfalso; unfold zlen at 1 in EP; rewrite LF in EP; lia|].
  cbn [av1_loop]. destruct (leb128 (zlen e) ++ e ++ rest) as [|b0 r0] eqn:ER; [discriminate|]. rewrite <- ER in *.
  assert ((if (w =? 0) || negb (negb (w =? 0) && (0 =? w - 1)) then
     match get_leb (leb128 (zlen e) ++ e ++ rest) with None => None
     | Some (n, r) => Some (n, (if (w =? 0) && (n =? zlen r) then true else negb (w =? 0) && (0 =? w - 1)), r) end
     else Some (zlen (leb128 (zlen e) ++ e ++ rest), negb (w =? 0) && (0 =? w - 1), leb128 (zlen e) ++ e ++ rest)) = Some (zlen e, false, e ++ rest)) as ->.
  { rewrite zlen_cons in W. rewrite get_leb_128 by lia. rewrite zlen_app. replace (zlen e =? zlen e + zlen rest) with false by lia. rewrite andb_false_r.
    destruct (w =? 0) eqn:Q; [reflexivity|]. replace (0 =? w - 1) with false by lia. reflexivity. }
  destruct (zlen e =? 0) eqn:Q; [lia|]. destruct (zlen (e ++ rest) <? zlen e) eqn:Q2; [rewrite zlen_app in Q2; lia|].
  replace (Z.to_nat (zlen e)) with (length e) by (unfold zlen; lia). rewrite firstn_app, skipn_app, skipn_all, Nat.sub_diag. cbn [skipn app ob avd0]. change ((0 =? 0) && true && (zlen [] =? 0)) with true. cbv iota.
  unfold rest. rewrite (loop_elems es fuel true y w 1 avd0 [] (w =? 0) us); try assumption; try lia; try reflexivity.
  - cbv zeta. eexists. rewrite outs_delivered. reflexivity.
  - eapply Forall_impl; [|exact F4]. intros ? (? & ? & ?). auto.
  - assert (zlen (leb128 (zlen e) ++ e ++ rest) = Z.of_nat (S fuel)) as Z1 by (unfold zlen at 1; rewrite LF; reflexivity). rewrite !zlen_app in Z1. pose proof (leb_zlen (zlen e)). pose proof (leb_size_pos (zlen e)). unfold rest, zlen in *. lia.
  - rewrite zlen_cons in W. destruct (w =? 0) eqn:Q0; lia.
  - cbn [ob avd0 app]. destruct es; [congruence|]. rewrite E. reflexivity.
Qed.
Print Assumptions C32_av1_lost_beginning.
Example av1_lost_case : snd (av1_dep avd0 (enc_pkt (mkK true false false 2 [[2; 3]; [40; 9]])) [] None) = Some ([42; 1; 9], Some false).
Proof. vm_compute. reflexivity. Qed.

(** ** What is not so *)
(** The bytes delivered are not the bytes sent: temporal delimiters, tile lists, padding and reserved units are gone, and size fields appear. *)
Theorem C32_av1_identity_refuted : exists os last pkts, Forall aobu_ok os /\ av1_packetize 1200 (frame_of os last) = Ok pkts /\
  (exists s', feed av1_dep avd0 pkts [] None = (s', Some (delivered os, Some true))) /\ delivered os <> frame_of os last.
Proof.
  exists ex_os, true, [[40; 3; 8; 10; 11; 52; 40; 1; 2; 3; 4; 5; 6; 7]]. split; [exact (proj1 av1_case)|]. split; [vm_compute; reflexivity|]. split; [eexists; vm_compute; reflexivity|]. vm_compute. discriminate.
Qed.
(** A frame of nothing but such units vanishes: no payload, no error. *)
Theorem C32_av1_vanishes : forall mtu os last, Forall aobu_ok os -> existsb sendable os = false -> av1_packetize mtu (frame_of os last) = Ok [].
Proof.
  intros mtu os last F X. unfold av1_packetize. destruct (_ || _); [reflexivity|]. destruct os as [|o os]; [reflexivity|]. destruct (parse_all (o :: os) last F ltac:(discriminate)) as (us & -> & E).
  assert (filter sendable (o :: os) = []) as FN. { destruct (filter sendable (o :: os)) as [|x xs] eqn:Q; [reflexivity|]. assert (In x (filter sendable (o :: os))) as IN by (rewrite Q; left; reflexivity). apply filter_In in IN. 
    assert (existsb sendable (o :: os) = true) as T by (apply existsb_exists; exists x; exact IN). congruence. }
  rewrite FN in E. apply map_eq_nil in E. subst us. reflexivity.
Qed.
Print Assumptions C32_av1_vanishes.
(** A later payload that starts with a fresh unit is a head as well: without the first payload the receiver takes the remains for a frame. *)
Theorem C32_av1_one_head_refuted : exists os last p rest s' part, Forall aobu_ok os /\ existsb sendable os = true /\
  av1_packetize 5 (frame_of os last) = Ok (p :: rest) /\ ~ one_head av1_head (p :: rest) /\ av1_head (hd [] rest) = true /\
  feed av1_dep avd0 rest [] None = (s', Some (part, Some false)) /\ part <> delivered os.
Proof.
  exists ex_os, true, [24; 8; 10; 11], [[80; 52; 40; 1; 2]; [208; 3; 4; 5; 6]; [144; 7]]. eexists _, _. split; [exact (proj1 av1_case)|]. split; [reflexivity|]. split; [vm_compute; reflexivity|].
  split; [|split; [reflexivity|split; [vm_compute; reflexivity|vm_compute; discriminate]]]. intros (q & r & E & _ & F). injection E as <- <-. inversion F as [|? ? F1 _]. discriminate F1.
Qed.
Print Assumptions C32_av1_one_head_refuted.

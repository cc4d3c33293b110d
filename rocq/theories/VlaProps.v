(** C36: the Video Layers Allocation header extension. *)
From Verif Require Import Base BaseFacts Brute VlaModel VlaSpec VlaProofs VlaProofs2.

(** Every allocation the format can express is read back from its encoding. *)
Theorem C36_parse_conforms : forall v, vla_ok v -> parse (enc v) = Ok v.
Proof. exact parse_enc. Qed.

(** Unless three or four streams have different sets of active layers, the writer produces the
    encoding, in front of what was in the buffer, and returns its length. *)
Theorem C36_write_conforms_partial : forall v buf, vla_ok v ->
  (uniform (v_streams v) = true \/ zlen (v_streams v) <= 2) -> zlen (enc v) <= zlen buf ->
  write v buf = Ok (zlen (enc v), enc v ++ skipn (length (enc v)) buf).
Proof. exact write_enc. Qed.

Theorem C36_round_trip_partial : forall v buf, vla_ok v ->
  (uniform (v_streams v) = true \/ zlen (v_streams v) <= 2) -> zlen (enc v) <= zlen buf ->
  exists n out, write v buf = Ok (n, out) /\ parse (firstn (Z.to_nat n) out) = Ok v.
Proof.
  intros v buf V W L. eexists. eexists. split; [apply write_enc; assumption|].
  unfold zlen. rewrite Nat2Z.id, firstn_app, firstn_all, Nat.sub_diag. cbn [firstn]. rewrite app_nil_r. apply parse_enc. exact V.
Qed.

(** ** Reading never panics, but for a size field of 0xFFFF *)
Definition suffix (a b : list Z) : Prop := exists p, b = p ++ a.
Lemma suffix_refl a : suffix a a. Proof. exists []. reflexivity. Qed.
Lemma suffix_trans a b c : suffix a b -> suffix b c -> suffix a c.
Proof. intros [p ->] [q ->]. exists (q ++ p). apply app_assoc. Qed.
Lemma suffix_cons x a : suffix a (x :: a). Proof. exists [x]. reflexivity. Qed.
Lemma suffix_skipn n a : suffix (skipn n a) a. Proof. exists (firstn n a). symmetry. apply firstn_skipn. Qed.

Lemma leb_from_suffix l : forall i a x r, leb_from i a l = Some (x, r) -> suffix r l.
Proof.
  induction l as [|b l IH]; intros i a x r H; [discriminate|]. cbn [leb_from] in H.
  destruct (negb (read_bit b 0) || (i =? 8)); [inversion H; subst; apply suffix_cons|].
  eapply suffix_trans; [eapply IH; exact H|apply suffix_cons].
Qed.
Lemma parse_rates_suffix n : forall l xs r, parse_rates n l = (xs, r) -> suffix r l.
Proof.
  induction n as [|n IH]; intros l xs r H; cbn [parse_rates] in H; [inversion H; subst; apply suffix_refl|].
  unfold parse_leb in H. destruct (leb_from 0 0 l) as [[x r1]|] eqn:E.
  - destruct (parse_rates n r1) as [ys r2] eqn:E2. inversion H; subst. eapply suffix_trans; [eapply IH; exact E2|eapply leb_from_suffix; exact E].
  - destruct (parse_rates n l) as [ys r2] eqn:E2. inversion H; subst. eapply IH. exact E2.
Qed.

Definition two_ff (l : list Z) : Prop := exists p q, l = p ++ [255; 255] ++ q.
Lemma two_ff_suffix a b : suffix a b -> two_ff a -> two_ff b.
Proof. intros [p ->] (p1 & q & ->). exists (p ++ p1), q. rewrite app_assoc. reflexivity. Qed.

Lemma next_res_cases l : bytes_ok l -> match next_res l with Panic => two_ff l | Err => False | Ok (_, r) => suffix r l end.
Proof.
  intro B. destruct l as [|a [|b [|c [|d [|e r]]]]]; cbn [next_res]; try apply suffix_refl.
  apply Forall_forall with (x := a) in B as Ha; [|left; reflexivity]. 
  assert (byte_ok b) as Hb by (eapply Forall_forall in B; [exact B|right; left; reflexivity]).
  assert (byte_ok c) as Hc by (eapply Forall_forall in B; [exact B|right; right; left; reflexivity]).
  assert (byte_ok d) as Hd by (eapply Forall_forall in B; [exact B|right; right; right; left; reflexivity]).
  unfold byte_ok in *. destruct (Z.eqb_spec (rd16 a b) 65535) as [E|E].
  - cbn [orb]. unfold rd16 in E. exists [], (c :: d :: e :: r). cbn. do 2 f_equal; lia.
  - cbn [orb]. destruct (Z.eqb_spec (rd16 c d) 65535) as [E'|E'].
    + unfold rd16 in E'. exists [a; b], (e :: r). cbn. do 4 f_equal; lia.
    + exists [a; b; c; d; e]. reflexivity.
Qed.
Lemma bytes_suffix a b : suffix a b -> bytes_ok b -> bytes_ok a.
Proof. intros [p ->] H. apply Forall_app in H. tauto. Qed.

Lemma build_stream_panic bits : forall cs rs rb, bytes_ok rb ->
  match build_stream bits cs rs rb with Panic => two_ff rb | Err => False | Ok (_, (_, _, r)) => suffix r rb end.
Proof.
  induction bits as [|[] bits IH]; intros cs rs rb B; cbn [build_stream]; [apply suffix_refl| |].
  - destruct cs as [|c cs]; [apply IH; exact B|]. pose proof (next_res_cases rb B) as N. destruct (next_res rb) as [[r rb']| |]; cbn [bind]; auto.
    specialize (IH cs (skipn (Z.to_nat c) rs) rb' (bytes_suffix _ _ N B)).
    destruct (build_stream bits cs _ rb') as [[l [[? ?] q]]| |]; cbn [bind]; auto; [eapply suffix_trans; eauto|eapply two_ff_suffix; eauto].
  - specialize (IH cs rs rb B). destruct (build_stream bits cs rs rb) as [[l [[? ?] q]]| |]; cbn [bind]; auto.
Qed.
Lemma build_panic bs : forall cs rs rb, bytes_ok rb -> match build bs cs rs rb with Panic => two_ff rb | Err => False | Ok _ => True end.
Proof.
  induction bs as [|b bs IH]; intros cs rs rb B; cbn [build]; [exact I|].
  pose proof (build_stream_panic b cs rs rb B) as N. destruct (build_stream b cs rs rb) as [[s [[c r] q]]| |]; cbn [bind]; auto.
  specialize (IH c r q (bytes_suffix _ _ N B)). destruct (build bs c r q); cbn [bind]; auto. eapply two_ff_suffix; eauto.
Qed.
Lemma split_at_suffix l n a b : split_at l n = Some (a, b) -> suffix b l.
Proof. unfold split_at. destruct (zlen l <? n); [discriminate|]. intro H. inversion H; subst. apply suffix_skipn. Qed.

Theorem C36_no_panic_partial : forall buf, bytes_ok buf ->
  (forall p q, buf <> p ++ [255; 255] ++ q) -> parse buf <> Panic.
Proof.
  intros buf B NF H. assert (two_ff buf) as (p & q & E); [|exact (NF p q E)].
  destruct buf as [|b0 after]; [discriminate|]. cbn [parse] in H. destruct ((b0 =? 0) && (zlen after =? 0)); [discriminate|].
  set (masks := if 0 <? read_bits b0 4 8 then _ else _) in H.
  assert (forall bits r, masks = Some (bits, r) -> suffix r (b0 :: after)) as SM.
  { intros bits r. unfold masks. destruct (0 <? read_bits b0 4 8).
    - intro X. inversion X; subst. apply suffix_cons.
    - destruct (split_at after _) as [[m rest]|] eqn:E; [|discriminate]. intro X. inversion X; subst.
      eapply suffix_trans; [eapply split_at_suffix; exact E|apply suffix_cons]. }
  destruct masks as [[bits r1]|]; [|discriminate]. specialize (SM _ _ eq_refl).
  destruct (split_at r1 _) as [[cb r2]|] eqn:E2; [|discriminate].
  destruct (parse_rates _ r2) as [rates r3] eqn:E3.
  assert (suffix r3 (b0 :: after)) as S3.
  { eapply suffix_trans; [eapply parse_rates_suffix; exact E3|]. eapply suffix_trans; [eapply split_at_suffix; exact E2|exact SM]. }
  match type of H with (do ss <- build ?a ?b ?c ?d ; _) = _ => pose proof (build_panic a b c d (bytes_suffix _ _ S3 B)) as N; destruct (build a b c d); cbn [bind] in H; try discriminate end.
  eapply two_ff_suffix; eassumption.
Qed.

(** ** Examples and refutations *)
Definition L1 := mkSpatial [100; 200; 300000] (Some (1920, 1080, 30)).
Definition L2 := mkSpatial [5] (Some (65535, 1, 255)).
Definition L0 := mkSpatial [] None.

Example C36_example : vla_ok (mkVla 2 [[L1; L0; L2]; [L0; L1]]) /\ zlen (v_streams (mkVla 2 [[L1; L0; L2]; [L0; L1]])) <= 2
  /\ write (mkVla 2 [[L1; L0; L2]; [L0; L1]]) (rep 9 40) <> Panic.
Proof.
  split; [|split; [cbn; lia|vm_compute; discriminate]].
  split; [cbn; lia|]. split; [cbn; lia|]. split; [|cbn; tauto].
  assert (layer_ok L1 /\ layer_ok L2 /\ layer_ok L0) as (A & B & C).
  { split; [|split]; unfold layer_ok; cbn; [|split; [|split]; [lia| |lia]|reflexivity]; [split; [lia|split; [|lia]]|]; repeat constructor; lia. }
  constructor; [|constructor; [|constructor]]; (split; [cbn; lia|split; [repeat (constructor; [assumption|]); constructor|right]]).
  - exists [L1; L0], L2. split; reflexivity.
  - exists [L0], L1. split; reflexivity.
Qed.
Example C36_uniform_example : let v := mkVla 1 [[L1]; [L2]; [L1]; [L1]] in uniform (v_streams v) = true /\
  exists n out, write v (rep 9 60) = Ok (n, out) /\ parse (firstn (Z.to_nat n) out) = Ok v.
Proof. split; [reflexivity|]. eexists. eexists. split; [vm_compute; reflexivity|vm_compute; reflexivity]. Qed.

(** A remote peer sending a width of 0xFFFF makes the reader panic (overflow checks on). *)
Theorem C36_no_panic_refuted : exists buf, bytes_ok buf /\ parse buf = Panic.
Proof. exists [1; 0; 5; 255; 255; 0; 1; 30]. split; [repeat constructor; unfold byte_ok; lia|vm_compute; reflexivity]. Qed.

(** Three or four streams with different sets of layers are garbled. *)
Theorem C36_round_trip_refuted : exists v, vla_ok v /\ zlen (enc v) <= 60 /\
  exists n out, write v (rep 0 60) = Ok (n, out) /\ parse (firstn (Z.to_nat n) out) <> Ok v.
Proof.
  exists (mkVla 0 [[L1]; [L1]; [L1]; [L0; L1]]). split; [|split; [vm_compute; discriminate|]].
  - split; [cbn; lia|]. split; [cbn; lia|]. split; [|cbn; tauto].
    assert (layer_ok L1 /\ layer_ok L0) as (A & C).
    { split; unfold layer_ok; cbn; [|reflexivity]; split; [lia|split; [|lia]]; repeat constructor; lia. }
    constructor; [|constructor; [|constructor; [|constructor; [|constructor]]]]; (split; [cbn; lia|split; [repeat (constructor; [assumption|]); constructor|right]]).
    all: first [exists [L0], L1; split; reflexivity | exists [], L1; split; reflexivity].
  - eexists. eexists. split; [vm_compute; reflexivity|]. vm_compute. discriminate.
Qed.

(** Five streams, or a current stream without any stream, make the writer panic. *)
Theorem C36_write_panics_refuted : write (mkVla 0 [[L1]; [L1]; [L1]; [L1]; [L1]]) (rep 0 255) = Panic /\
  write (mkVla 1 []) (rep 0 255) = Panic.
Proof. split; vm_compute; reflexivity. Qed.

Print Assumptions C36_parse_conforms.
Print Assumptions C36_round_trip_partial.
Print Assumptions C36_no_panic_partial.

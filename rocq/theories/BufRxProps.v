(** C11: the depacketizing buffer.  Statements only. *)
From Verif Require Import Base BaseFacts BufRxModel BufRxSpec BufRxProofs.

(** For every codec and every history of calls on a new buffer: no call panics, and every frame
    returned is genuine (offered packets, consecutive numbers, one RTP time, the codec's output). *)
Theorem C11_frames_genuine : forall DS X CS (xnone : X) dep is_head is_tail check hold_back (d : DS) (c : CS) ops,
  exists b fs, run xnone dep is_head is_tail check (new hold_back d c) ops = Ok (b, fs) /\
    Forall (genuine xnone dep (offered ops)) fs.
Proof.
  intros. destruct (run_sound xnone dep is_head is_tail check ops [] _ (inv_new xnone dep hold_back d c)) as (b & fs & E & _ & F).
  exists b, fs. split; [exact E|exact F].
Qed.
Print Assumptions C11_frames_genuine.

(** Order and no duplicates, when packets are offered in increasing order (with any loss). *)
Theorem C11_order_in_order_arrival_partial : forall DS X CS (xnone : X) dep is_head is_tail check hold_back (d : DS) (c : CS) ops b fs,
  0 < hold_back -> increasing ops ->
  run xnone dep is_head is_tail check (new hold_back d c) ops = Ok (b, fs) -> in_order fs.
Proof. intros. eapply order_increasing; eauto. Qed.
Print Assumptions C11_order_in_order_arrival_partial.

(** Order and no duplicates for any arrival order, when nothing is held back. *)
Theorem C11_order_hold_back_one_partial : forall DS X CS (xnone : X) dep is_head is_tail check (d : DS) (c : CS) ops b fs,
  run xnone dep is_head is_tail check (new 1 d c) ops = Ok (b, fs) -> in_order fs.
Proof. intros. eapply order_one; eauto. Qed.
Print Assumptions C11_order_hold_back_one_partial.

(** Old padding does not pile up and nothing else is thrown away: when a pop finds no segment, the
    queue keeps every packet with a payload or a frame boundary, in order, loses no padding packet as
    long as there are at most [hold_back] of them, and ends with at most [hold_back] of them. *)
Definition pads {X} (q : list X) (f : X -> bool) : Z := zlen (filter f q).
Lemma retain_spec : forall q x, 0 <= x -> filter (fun e => negb (is_padding e)) (retain_padding x q) = filter (fun e => negb (is_padding e)) q /\
  pads (retain_padding x q) is_padding = Z.max 0 (pads q is_padding - x).
Proof.
  unfold pads. induction q as [|e q IH]; intros x X; cbn [retain_padding filter]; [split; [reflexivity|cbn; lia]|].
  destruct (is_padding e) eqn:P; cbn [negb].
  - rewrite andb_true_r. destruct (0 <? x) eqn:G.
    + destruct (IH (x - 1) ltac:(lia)) as [-> ->]. rewrite zlen_cons. pose proof (zlen_nonneg (filter is_padding q)). split; [reflexivity|lia].
    + cbn [filter]. rewrite P. cbn [negb]. destruct (IH x X) as [-> E]. rewrite !zlen_cons, E. pose proof (zlen_nonneg (filter is_padding q)). split; [reflexivity|lia].
  - rewrite andb_false_r. cbn [filter]. rewrite P. cbn [negb]. destruct (IH x X) as [-> ->]. split; reflexivity.
Qed.
Lemma drop_front_spec hb : forall q last, let q' := fst (drop_front hb q last) in
  filter (fun e => negb (is_padding e)) q' = filter (fun e => negb (is_padding e)) q /\ pads q' is_padding <= pads q is_padding /\
  (zlen q <= hb -> q' = q).
Proof.
  unfold pads. induction q as [|e q IH]; intro last; cbn [drop_front]; [cbn; auto with zarith|].
  destruct (zlen (e :: q) <=? hb) eqn:L; cbn [fst]; [auto with zarith|]. destruct (is_padding e) eqn:P; cbn [negb fst]; [|split; [reflexivity|split; lia]].
  cbn [filter]. rewrite P. cbn [negb]. rewrite !zlen_cons in *.
  destruct (IH (if is_next last (seq (emeta e)) then seq (emeta e) else last)) as (E1 & E2 & E3). rewrite E1. split; [reflexivity|]. split; lia.
Qed.
Theorem C11_padding_bounded : forall DS X CS (b : @buf DS X CS), 0 <= hold_back b ->
  let b' := discard_old_padding b in
  filter (fun e => negb (is_padding e)) (queue b') = filter (fun e => negb (is_padding e)) (queue b) /\
  pads (queue b') is_padding <= hold_back b /\
  (zlen (queue b) <= hold_back b -> queue b' = queue b /\ cache b' = cache b).
Proof.
  intros DS X CS b H b'. unfold b', discard_old_padding. destruct (last_emitted b) as [[last x]|].
  - pose proof (drop_front_spec (hold_back b) (queue b) last) as D. destruct (drop_front (hold_back b) (queue b) last) as [q last']. cbn [fst queue cache] in *.
    destruct D as (D1 & D2 & D3). destruct (retain_spec q (Z.max 0 (zlen (filter is_padding q) - hold_back b)) ltac:(lia)) as [R1 R2].
    rewrite R1, R2, D1. unfold pads in *. split; [reflexivity|]. split; [lia|]. intro L. rewrite (D3 L) in *.
    assert (zlen (filter is_padding (queue b)) <= zlen (queue b)) as FL by (clear; induction (queue b) as [|e l IH]; cbn [filter]; [lia|]; destruct (is_padding e); rewrite ?zlen_cons; lia).
    replace (Z.max 0 _) with 0 by lia. assert (forall l, retain_padding 0 l = l) as RZ by (induction l as [|e l IH]; cbn; [reflexivity|rewrite IH; reflexivity]).
    rewrite RZ, Z.eqb_refl. auto.
  - cbn [queue cache]. destruct (retain_spec (queue b) (Z.max 0 (zlen (filter is_padding (queue b)) - hold_back b)) ltac:(lia)) as [R1 R2].
    rewrite R1, R2. unfold pads in *. split; [reflexivity|]. split; [lia|]. intro L.
    assert (zlen (filter is_padding (queue b)) <= zlen (queue b)) as FL by (clear; induction (queue b) as [|e l IH]; cbn [filter]; [lia|]; destruct (is_padding e); rewrite ?zlen_cons; lia).
    replace (Z.max 0 _) with 0 by lia. assert (forall l, retain_padding 0 l = l) as RZ by (induction l as [|e l IH]; cbn; [reflexivity|rewrite IH; reflexivity]).
    rewrite RZ, Z.eqb_refl. auto.
Qed.
Print Assumptions C11_padding_bounded.

(** A codec like Opus: every packet is a frame. *)
Definition copy (d : unit) (p out : list Z) (x : unit) : unit * option (list Z * unit) := (d, Some (out ++ p, x)).
Definition every (_ : unit) (_ : list Z) : bool := true.
Definition every_t (_ : unit) (_ : bool) (_ : list Z) : bool := true.
Definition no_check (c : unit) (_ : unit) (v : bool) : unit * (bool * bool) := (c, (true, v)).
Definition opus hb ops := run tt copy every every_t no_check (new hb tt tt) ops.
Definition pkt (s : Z) : op := Push (mkM s s true) [s].
Definition got (r : res (@buf unit unit unit * list (@frame unit))) : list (list Z) := match r with Ok (_, fs) => map (fun f => map seq (fmeta f)) fs | _ => [] end.

(** The general claim is false: a frame that waits behind a gap is remembered by its place in the
    queue, and packets that arrive late shift the places.  Packet 10 waits after 3; 5 and 4 arrive; the
    buffer returns 10, then 5 (out of order), then 10 again (a duplicate), and 4 never. *)
Definition late : list op := [pkt 3; Pop; pkt 10; Pop; pkt 5; Pop; pkt 4; Pop; Pop; pkt 11; pkt 12; Pop].
Theorem C11_order_refuted : exists b fs, opus 3 late = Ok (b, fs) /\
  got (Ok (b, fs)) = [[3]; [10]; [5]; [10]] /\ ~ in_order fs.
Proof.
  eexists _, _. split; [vm_compute; reflexivity|]. split; [reflexivity|].
  intro H. match type of H with in_order [?f0; ?f1; ?f2; ?f3] =>
    specialize (H [f0] f1 [] f2 [f3] eq_refl (mkM 10 10 true) (mkM 5 5 true)) end.
  cbn in H. specialize (H (or_introl eq_refl) (or_introl eq_refl)). lia.
Qed.
Print Assumptions C11_order_refuted.

(** The hypotheses are met by real histories: loss (in order), and reordering with no hold back. *)
Definition lossy : list op := [pkt 3; Pop; pkt 5; Pop; pkt 7; Pop; pkt 8; Pop; Pop].
Example C11_in_order_concrete : increasing lossy /\ got (opus 3 lossy) = [[3]; [5]] /\
  got (opus 1 [pkt 3; Pop; pkt 6; pkt 5; Pop; pkt 4; Pop]) = [[3]; [5]; [6]].
Proof.
  split; [|split; vm_compute; reflexivity].
  intros a m d b m' d' c E. cbn in E.
  repeat match goal with E : _ = ?l ++ _ |- _ => is_var l; destruct l; cbn [app] in E; try discriminate E; injection E; clear E; intros; subst; cbn [seq]; try lia end.
Qed.

(** C24: reading TWCC feedback. *)
From Verif Require Import Base BaseFacts SeqModel TwccModel TwccSpec TwccProofs RtcpModel RtcpSpec RtcpNoPanic.

(** C24. Parsing feedback never panics, whatever the bytes. *)
Theorem C24_parse_no_panic : forall b, bytes_ok b -> twcc_parse b <> Panic.
Proof. intros b Hb. exact (twcc_parse_np b Hb). Qed.

(** C24. Iterating any parsed message without zero-length runs never panics and
    yields exactly the announced number of results: the statuses of the chunks
    in order, numbered consecutively from the extended base sequence number,
    and for each received packet the arrival time the deltas add up to.  The
    iterator is exhausted then: asking once more gives the end. *)
Theorem C24_iterate : forall b t from, bytes_ok b -> twcc_parse b = Ok t -> no_empty_run t ->
  let base := extend_u16 (Some from) (t_base t) in
  let rs := results base (t_ref t * 64000) (firstn (Z.to_nat (t_count t)) (statuses (t_chunks t))) (t_deltas t) in
  titer_run (S (Z.to_nat (t_count t))) (twcc_iter t from) = Ok rs /\
  map (fun r => fst (fst r)) rs = zseq base (Z.to_nat (t_count t)).
Proof.
  intros b t from Hb Hp Hn base rs. destruct (twcc_parse_inv b t Hb Hp) as (F & C & S & K).
  pose proof (statuses_size _ C) as SS. destruct F as (_ & _ & _ & Fc & _).
  assert (Z.to_nat (t_count t) <= length (statuses (t_chunks t)))%nat as Le by (unfold zlen in SS; lia).
  assert (Forall run_pos (t_chunks t)) as R by exact Hn.
  pose proof (it_start base (base + t_count t) (t_ref t * 64000) (t_chunks t) (t_deltas t) C R K) as I.
  split.
  - unfold twcc_iter. fold base.
    pose proof (iter_results (Z.to_nat (t_count t)) _ I) as IR. cbn [i_last i_base i_idx i_time i_deltas] in IR.
    rewrite pending_start in IR. rewrite Z.add_0_r in IR. apply IR; [lia|exact Le].
  - unfold rs. rewrite results_seqs, firstn_length_le by exact Le. reflexivity.
Qed.

(** Running the iterator further gives nothing more. *)
Theorem C24_iterate_ends : forall b t from n, bytes_ok b -> twcc_parse b = Ok t -> no_empty_run t ->
  (Z.to_nat (t_count t) <= n)%nat ->
  titer_run (S n) (twcc_iter t from) = titer_run (S (Z.to_nat (t_count t))) (twcc_iter t from).
Proof.
  intros b t from n Hb Hp Hn Hle. destruct (C24_iterate b t from Hb Hp Hn) as [E Q]. rewrite E. 
  set (rs := results _ _ _ _) in *. clearbody rs.
  assert (length rs = Z.to_nat (t_count t)) as Lr.
  { pose proof (f_equal (@length Z) Q) as L. rewrite map_length, zseq_length in L. exact L. }
  assert (forall k it l m, titer_run (S k) it = Ok l -> length l = k -> (k <= m)%nat -> titer_run (S m) it = Ok l) as G.
  { clear. induction k as [|k IH]; intros it l m H L Hm.
    - cbn [titer_run] in *. destruct (titer_next it) as [[[x|] it']| |]; cbn [bind] in *; try discriminate; [|assumption].
      injection H as <-. cbn in L. discriminate.
    - destruct m as [|m]; [lia|]. remember (S k) as k1. remember (S m) as m1. cbn [titer_run] in H |- *.
      destruct (titer_next it) as [[[x|] it']| |]; cbn [bind] in *; try discriminate; [|assumption].
      subst k1 m1. destruct (titer_run (S k) it') as [r| |] eqn:Er; cbn [bind] in *; try discriminate.
      injection H as <-. cbn [length] in L. pose proof (IH it' r m Er ltac:(lia) ltac:(lia)) as I2. rewrite I2. reflexivity. }
  exact (G _ _ _ n E Lr Hle).
Qed.

(** C24. Any well-formed message whose two-byte runs are not followed by more
    deltas is read back from its serialization exactly. *)
Theorem C24_roundtrip : forall t, twcc_ok t -> large_runs_last t -> exists bs body,
  twcc_write t = Ok (bs, zlen bs) /\ twcc_parse body = Ok t /\ exists hd pad, bs = hd ++ body ++ pad /\ zlen hd = 4 /\ 0 <= zlen pad < 4.
Proof.
  intros t H1 H2. destruct (twcc_round t H1 H2) as (body & pad & E & Hp & Hl & _ & P).
  assert (zlen (padding pad) = pad) as Lp.
  { unfold padding. destruct (pad =? 0) eqn:E0; [change (zlen (@nil Z)) with 0; lia|]. rewrite zlen_app, zlen_rep by lia. change (zlen [pad]) with 1. lia. }
  exists ([if pad =? 0 then 143 else 175; 205] ++ be16 (twcc_words t - 1) ++ body ++ padding pad), body. split.
  - rewrite E. f_equal. f_equal. rewrite !zlen_app, Lp. change (zlen [if pad =? 0 then 143 else 175; 205]) with 2.
    change (zlen (be16 (twcc_words t - 1))) with 2. lia.
  - split; [exact P|]. exists ([if pad =? 0 then 143 else 175; 205] ++ be16 (twcc_words t - 1)), (padding pad).
    split; [rewrite <- app_assoc; reflexivity|]. split; [reflexivity|]. lia.
Qed.

(** ** The conditions matter *)
(** C24 is false for a zero-length run: a peer can send feedback that parses
    but makes the iterator panic. *)
Definition evil : list Z := be32 1 ++ be32 2 ++ be16 0 ++ be16 1 ++ be24 0 ++ [0] ++ [32; 0] ++ [64; 1] ++ [0; 0].
Theorem C24_iterator_panics_refuted : exists t, twcc_parse evil = Ok t /\
  t_chunks t = [Run SmallDelta 0; Run LargeDelta 1] /\ titer_run 2 (twcc_iter t 0) = Panic.
Proof. eexists. split; [vm_compute; reflexivity|]. split; vm_compute; reflexivity. Qed.
(** A run of two-byte deltas followed by a one-byte delta is misread: the
    parser moves on by one byte per delta instead of two. *)
Definition after_large := Twcc 1 2 0 3 0 0 [Run LargeDelta 2; Run SmallDelta 1] [Large 1; Large 2; Small 7].
Theorem C24_roundtrip_refuted : twcc_ok after_large /\ exists bs n t',
  twcc_write after_large = Ok (bs, n) /\ twcc_parse (skipn 4 bs) = Ok t' /\
  t_deltas t' = [Large 1; Large 2; Small 0].
Proof.
  split.
  - split; [repeat split; cbn; unfold U32, U16; lia|]. split; [repeat (apply Forall_cons; [cbn; lia|]); apply Forall_nil|].
    split; [repeat (apply Forall_cons; [cbn; lia|]); apply Forall_nil|]. split; [cbn; lia|]. split; [|reflexivity].
    intros cs c E. destruct cs as [|c1 [|c2 [|c3 cs]]]; cbn in E; try discriminate. injection E as <- _. cbn; lia.
  - do 3 eexists. split; [vm_compute; reflexivity|]. split; vm_compute; reflexivity.
Qed.

(** ** An example with every chunk kind *)
Definition ex := Twcc 1 2 65530 24 100 3 [VSingle 8193 14; Run NotReceived 2; VDouble 6144 7; Run LargeDelta 1]
   [Small 4; Small 255; Small 1; Large (-3); Large 9].
Example ex_reads : exists bs n, twcc_write ex = Ok (bs, n) /\ twcc_parse (firstn 31 (skipn 4 bs)) = Ok ex /\
  titer_run 25 (twcc_iter ex 65540) = Ok (results 65530 6400000 (statuses (t_chunks ex)) (t_deltas ex)) /\
  zlen (results 65530 6400000 (statuses (t_chunks ex)) (t_deltas ex)) = 24.
Proof. do 2 eexists. split; [vm_compute; reflexivity|]. split; [vm_compute; reflexivity|]. split; vm_compute; reflexivity. Qed.

Print Assumptions C24_parse_no_panic.
Print Assumptions C24_iterate.
Print Assumptions C24_roundtrip.

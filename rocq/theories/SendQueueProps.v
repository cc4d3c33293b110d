(** C10: the send queue.  Statements only. *)
From Verif Require Import Base BaseFacts SendQueueModel SendQueueSpec SendQueueProofs.
Section Q.
Context {B : Type}.
Local Notation qpkt := (SendQueueModel.qpkt B). Local Notation sendq := (SendQueueModel.sendq B).
Local Notation qop := (SendQueueModel.qop B). Local Notation qout := (SendQueueModel.qout B).
Local Notation fifo := (SendQueueSpec.fifo (B := B)).

(** For every history with a clock that does not run backwards, the queue never panics and every
    popped packet and every snapshot equals what the plain FIFO of the specification yields, where
    the snapshot is recomputed from the packets actually inside: byte size, count and total queue
    time are exact.  (The count field is 32 bits: the hypothesis [never_full].) *)
Theorem C10_queue_is_a_fifo_with_exact_accounting : forall (ops : list qop) t0,
  clock t0 ops -> never_full ([], None) ops ->
  exists q, qrun sq_new ops = Ok (q, snd (frun ([], None) ops)) /\ queue q = fst (fst (frun ([], None) ops)).
Proof. intros ops t0 C N. eapply run_ok; [apply (qi_new t0)|exact C|exact N]. Qed.

(** Without clear: packets popped, followed by the packets still inside, are exactly the packets
    pushed, in the order pushed: nothing lost, duplicated or reordered. *)
Theorem C10_nothing_lost_or_reordered : forall (ops : list qop) t0 q outs,
  clock t0 ops -> never_full ([], None) ops -> ~ In QClear ops ->
  qrun sq_new ops = Ok (q, outs) -> pushed ops = popped outs ++ map fst (queue q).
Proof.
  intros ops t0 q outs C N NC E.
  destruct (C10_queue_is_a_fifo_with_exact_accounting ops t0 C N) as (q' & E').
  destruct E' as [E' Eq]. rewrite E in E'. injection E' as -> ->. rewrite Eq.
  exact (fifo_order ops ([], None) NC).
Qed.

(** After a timeout nothing is held back: a pop yields the front packet, whatever was pushed last. *)
Theorem C10_timeout_releases_everything : forall (f : fifo) now p r,
  fst f = (p, None) :: r -> snd (fstep (fst (fstep f (QTimeout now))) (QPop now)) = OPop (Some p).
Proof. intros [l e] now p r E. cbn [fst] in E. subst. reflexivity. Qed.

(** It asks to be called at once exactly when some packet inside was not yet made visible. *)
Theorem C10_asks_for_timeout : forall (ops : list qop) t0 q outs, clock t0 ops -> never_full ([], None) ops ->
  qrun sq_new ops = Ok (q, outs) -> (need_timeout q = true <-> exists p, In (p, None) (queue q)).
Proof.
  intros ops t0 q outs C N E. destruct (run_qi ops t0 sq_new ([], None) (qi_new t0) C N) as (q' & cur & f & E' & H). rewrite E in E'. injection E' as <- _.
  rewrite (qi_q _ _ _ H). unfold need_timeout. rewrite (qi_q _ _ _ H). destruct (qi_st _ _ _ H) as (a & b & SS). rewrite SS. clear.
  destruct b as [|y b] using rev_ind; [|clear IHb].
  - rewrite app_nil_r. split.
    + destruct (rev _) as [|[p [t|]] r] eqn:R; try discriminate. intros _. exfalso.
      assert (In (p, None) (map (fun x => (fst x, Some (snd x))) a)) as X by (apply in_rev; rewrite R; left; reflexivity). apply in_map_iff in X as (z & Z1 & _). discriminate.
    + intros (p & J). apply in_map_iff in J as (z & Z1 & _). discriminate.
  - rewrite map_app, app_assoc, rev_app_distr. cbn. split; [|reflexivity]. intros _. exists y. apply in_or_app. right. left. reflexivity.
Qed.

End Q.
Print Assumptions C10_queue_is_a_fifo_with_exact_accounting.
Print Assumptions C10_nothing_lost_or_reordered.
Print Assumptions C10_timeout_releases_everything.
Print Assumptions C10_asks_for_timeout.

Definition C10_ops : list (qop Z) :=
  [QPush (mkQ 5 1); QPop 0; QTimeout 10; QPush (mkQ 7 2); QSnapshot 14; QTimeout 15; QSnapshot 20; QPop 21; QSnapshot 30; QPop 31; QSnapshot 31].
Example C10_case : clock 0 C10_ops /\ never_full ([], None) C10_ops /\
  exists q, qrun sq_new C10_ops = Ok (q, [ONone; OPop None; ONone; ONone; OSnap (mkSnap 14 5 1 4 None (Some 10) true);
    ONone; OSnap (mkSnap 20 12 2 15 None (Some 10) true); OPop (Some (mkQ 5 1));
    OSnap (mkSnap 30 7 1 15 (Some 21) (Some 15) true); OPop (Some (mkQ 7 2)); OSnap (mkSnap 31 0 0 0 (Some 31) None false)]).
Proof.
  split; [cbn; lia|]. split; [cbn; unfold zlen, U32; cbn; repeat split; lia|].
  eexists. vm_compute. reflexivity.
Qed.

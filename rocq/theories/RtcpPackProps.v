(** C20: packing feedback into compound packets. *)
From Verif Require Import Base BaseFacts TwccModel TwccSpec RtcpModel RtcpSpec RtcpNoPanic RtcpProofs RtcpRound RtcpProps RtcpPackProofs.
From Coq Require Import Permutation.

(** C20. For every queue (its report lists within capacity) and every buffer
    size, writing a compound packet succeeds: no feedback item is lost,
    duplicated or invented between what was written and what stays queued; the
    bytes are those of the packets written one after the other and fit the
    buffer; packets come in order of rank, sender and receiver reports first;
    and what stays queued begins with a packet there was no more room for. *)
Theorem C20_pack : forall q total, Forall lists_ok q -> 0 <= total ->
  exists bs out rest, write_packet q total = Ok (bs, out, rest) /\
    Permutation (flat_map items q) (flat_map items out ++ flat_map items rest) /\
    write_all out = Ok bs /\ zlen bs <= total /\
    ascending (map rank (out ++ rest)) /\
    Forall lists_ok rest /\
    (forall p r, rest = p :: r -> total - zlen bs < 4 * words p).
Proof.
  intros q total F Ht.
  assert (forall p, rank p = order_no p) as RO by (intros []; reflexivity).
  destruct q as [|p0 q0].
  { exists [], [], []. cbn. repeat split; auto. intros; discriminate. }
  unfold write_packet. set (q := p0 :: q0) in *.
  destruct (pack_spec q (total / 4) F) as (l & -> & P & L & A & _). cbn [bind].
  destruct (emit_spec l total L Ht) as (bs & out & rest & E & Eq & Ew & Lw & Hh).
  exists bs, out, rest. split; [exact E|]. split; [rewrite <- flat_map_app, <- Eq; exact P|].
  split; [exact Ew|]. split; [exact Lw|]. split.
  - rewrite <- Eq. rewrite (map_ext _ _ RO). exact A.
  - split; [|exact Hh]. rewrite Eq in L. apply Forall_app in L. apply L.
Qed.

(** Sender and receiver reports, if any are written or left, come first. *)
Theorem C20_reports_first : forall q total bs out rest p, Forall lists_ok q -> 0 <= total ->
  write_packet q total = Ok (bs, out, rest) -> In p (out ++ rest) -> rank p <= 1 ->
  exists p0 r, out ++ rest = p0 :: r /\ rank p0 <= 1.
Proof.
  intros q total bs out rest p F Ht E Hin Hp.
  destruct (C20_pack q total F Ht) as (bs' & out' & rest' & E' & _ & _ & _ & A & _). rewrite E in E'. injection E' as <- <- <-.
  destruct (out ++ rest) as [|p0 r]; [destruct Hin|]. exists p0, r. split; [reflexivity|].
  destruct Hin as [->|Hin]; [exact Hp|]. cbn [map] in A. pose proof (asc_head _ _ A (rank p) (in_map _ _ _ Hin)). lia.
Qed.

(** What the peer reads from one compound packet is exactly what was written. *)
Theorem C20_peer_reads : forall q total bs out rest, Forall lists_ok q -> 0 <= total ->
  write_packet q total = Ok (bs, out, rest) -> Forall carried out -> read_packet bs = Ok (map as_read out).
Proof.
  intros q total bs out rest F Ht E C. destruct (C20_pack q total F Ht) as (bs' & out' & rest' & E' & _ & W & _).
  rewrite E in E'. injection E' as <- <- <-. destruct (C21_roundtrip_exact out C) as (b & Wb & R). congruence.
Qed.

(** ** Draining the queue *)
(** One call after the other until the queue is empty; [ws] are the packets
    written by each call.  A call that writes nothing leaves an empty queue (it
    held only packets without content). *)
Inductive drains (total : Z) : list rtcp -> list (list rtcp) -> Prop :=
| drains_nil : drains total [] []
| drains_step q bs out rest ws :
    write_packet q total = Ok (bs, out, rest) -> (out = [] -> rest = []) -> zlen bs <= total ->
    drains total rest ws -> drains total q (out :: ws).

Lemma drain_empties : forall n q total, (length q <= n)%nat -> Forall lists_ok q -> Forall (fun p => 4 * words p <= total) q -> 0 <= total ->
  exists ws, drains total q ws /\ Permutation (flat_map items q) (flat_map items (concat ws)).
Proof.
  induction n as [|n IH]; intros q total Hn F W Ht.
  - destruct q; [|cbn in Hn; lia]. exists []. split; constructor.
  - destruct q as [|p0 q0]; [exists []; split; constructor|].
    assert (exists bs out rest, write_packet (p0 :: q0) total = Ok (bs, out, rest) /\ zlen bs <= total /\
       Permutation (flat_map items (p0 :: q0)) (flat_map items out ++ flat_map items rest) /\ Forall lists_ok rest /\
       Forall (fun p => 4 * words p <= total) rest /\ (length rest <= n)%nat /\ (out = [] -> rest = [])) as H.
    { unfold write_packet. set (q := p0 :: q0) in *.
      destruct (pack_spec q (total / 4) F) as (l & -> & P & L & A & C & Len & _). cbn [bind].
      destruct (emit_spec l total L Ht) as (bs & out & rest & E & Eq & Ew & Lw & Hh).
      assert (Forall (fun p => 4 * words p <= total) l) as Wl.
      { eapply Forall_impl; [|apply C]; [cbn beta; intros; dlia|]. eapply Forall_impl; [|exact W]. cbn beta. intros; dlia. }
      exists bs, out, rest. split; [exact E|]. split; [exact Lw|]. split; [rewrite <- flat_map_app, <- Eq; exact P|].
      rewrite Eq in L, Wl. apply Forall_app in L. apply Forall_app in Wl. split; [apply L|]. split; [apply Wl|].
      assert (out = [] -> rest = []) as Hne.
      { intro Eo. destruct rest as [|p r]; [reflexivity|]. specialize (Hh p r eq_refl). destruct Wl as [_ Wl]. pose proof (Forall_inv Wl).
        cbn beta in *. rewrite Eo in Ew. cbn in Ew. injection Ew as <-. change (zlen (@nil Z)) with 0 in Hh. lia. }
      split; [|exact Hne]. destruct out as [|o out]; [rewrite Hne by reflexivity; cbn; lia|].
      rewrite Eq in Len. cbn [app length] in Len. rewrite app_length in Len. lia. }
    destruct H as (bs & out & rest & E & Lw & P & L & Wr & Ln & Hne).
    assert (exists ws, drains total rest ws /\ Permutation (flat_map items rest) (flat_map items (concat ws))) as (ws & D & P2) by (apply IH; assumption).
    exists (out :: ws). split.
    + econstructor; [exact E|exact Hne|exact Lw|exact D].
    + cbn [concat]. rewrite flat_map_app. eapply perm_trans; [exact P|]. apply Permutation_app_head. exact P2.
Qed.
(** C20. If every single queued packet fits the buffer on its own, repeated
    calls empty the queue and together they carry every feedback item exactly
    once. *)
Theorem C20_drain : forall q total, Forall lists_ok q -> Forall (fun p => 4 * words p <= total) q ->
  exists ws, drains total q ws /\ Permutation (flat_map items q) (flat_map items (concat ws)).
Proof.
  intros q total F W. destruct q as [|p q]; [exists []; split; constructor|].
  assert (0 <= total) by (pose proof (Forall_inv W) as H; cbn beta in H; pose proof (words_pos p); lia).
  apply (drain_empties (length (p :: q))); auto.
Qed.

(** Without that condition a packet too big for the buffer blocks all the
    feedback ranked behind it for good: here a source description larger than
    the 100-byte buffer keeps a keyframe request from ever being sent. *)
Theorem C20_blocking_refuted : let q := [Sdes [SDES 1 [(1, rep 65 120)]]; Pli 1 2] in
  write_packet q 100 = Ok ([], [], q).
Proof. vm_compute. reflexivity. Qed.

(** ** Examples *)
Definition ex_q : list rtcp :=
  [Nack 1 5 [NE 10 0]; Pli 1 5; Rr 1 [ex_rr]; Nack 1 6 [NE 3 1]; Nack 2 5 [NE 20 0; NE 40 0]; Sr (SI 1 2 3 4 5) []; Bye [9]; Rr 2 [ex_rr; ex_rr]].
Example ex_q_ok : Forall lists_ok ex_q.
Proof. repeat (apply Forall_cons; [cbn; unfold upto31; cbn; lia|]). apply Forall_nil. Qed.
(** all three receiver reports go into the sender report, the NACKs of one
    source are merged, in 160 bytes everything fits *)
Example ex_q_packs : exists bs, write_packet ex_q 160 = Ok (bs,
   [Sr (SI 1 2 3 4 5) [ex_rr; ex_rr; ex_rr]; Nack 1 5 [NE 10 0; NE 20 0; NE 40 0]; Nack 1 6 [NE 3 1]; Pli 1 5; Bye [9]], []).
Proof. eexists. vm_compute. reflexivity. Qed.
(** in 80 bytes only some of it does, the rest stays *)
Example ex_q_partial_fit : exists bs, write_packet ex_q 80 = Ok (bs,
   [Sr (SI 1 2 3 4 5) [ex_rr; ex_rr]], [Rr 2 [ex_rr]; Nack 1 5 [NE 10 0]; Nack 1 6 [NE 3 1]; Nack 2 5 [NE 20 0; NE 40 0]; Pli 1 5; Bye [9]]).
Proof. eexists. vm_compute. reflexivity. Qed.

Print Assumptions C20_pack.
Print Assumptions C20_drain.

(** C12: decodability decisions.  Statements only. *)
From Verif Require Import Base BaseFacts SeqModel BufRxModel BufRxSpec BufRxContig.
From Verif Require Import ContigModel ContigSpec ContigProofs.

(** VP8: whatever the sender's layers and starting numbers, whatever was lost and whatever the
    sequence numbers said, every decision is right, across any number of wire number wraps. *)
Theorem C12_vp8_decisions : forall layer p0 t0 ks flags,
  received layer ks -> length flags = length ks -> (forall k, In k ks -> Z.of_nat k < 2 ^ 62) ->
  all_right layer ks (decide vp8_frame vp8_start (combine (map (on_wire layer p0 t0) ks) flags)).
Proof. intros. apply okrun_right. apply vp8_all; assumption. Qed.
Print Assumptions C12_vp8_decisions.

(** VP9: the same, but only until one of the wire numbers wraps. *)
Theorem C12_vp9_decisions_partial : forall layer p0 t0 ks flags,
  0 <= p0 -> 0 <= t0 -> received layer ks -> length flags = length ks ->
  (forall k, In k ks -> p0 + Z.of_nat k < 2 ^ 15 /\ t0 + bases layer k < 2 ^ 8) ->
  all_right layer ks (decide vp9_frame (mkC None None) (combine (map (on_wire layer p0 t0) ks) flags)).
Proof. intros. apply okrun_right. apply vp9_all; assumption. Qed.
Print Assumptions C12_vp9_decisions_partial.

(** After the picture with the largest 15-bit number, no VP9 frame with layer information is
    handed over any more, ever. *)
Theorem C12_vp9_wrap_refuted : forall s t fs, 
  let s1 := fst (vp9_frame s (mkW 32767 t 0) true) in
  snd (vp9_frame s (mkW 32767 t 0) true) = (true, true) -> 0 <= t < 256 ->
  (forall w q, In (w, q) fs -> 0 <= w_pid w < 2 ^ 15) ->
  Forall (fun d => fst d = false) (decide vp9_frame s1 fs).
Proof.
  intros s t fs s1 E T F. assert (s1 = mkC (Some 32767) (Some t)) as ->.
  { subst s1. unfold vp9_frame, vp9_check, next_frame in *. cbn [w_pid w_tl0 w_tid] in *.
    assert (fits U16 (Some 32767) = Some 32767) as F1 by reflexivity.
    assert (fits U8 (Some t) = Some t) as F2 by (unfold fits, U8; destruct (t <? 256) eqn:Q; [reflexivity|lia]).
    destruct (last_tl0 s) as [lt|] eqn:L1; destruct (last_pid s) as [lp|] eqn:L2; cbn [fst snd last_pid last_tl0] in *; rewrite ?F1, ?F2; try reflexivity.
    destruct (32767 <=? lp) eqn:Q; cbn [fst snd last_pid last_tl0] in *; [discriminate|]. rewrite F1, F2. reflexivity. }
  clear E. induction fs as [|[w q] fs IH]; [constructor|]. cbn [decide].
  pose proof (F w q (or_introl eq_refl)) as W.
  assert (vp9_frame (mkC (Some 32767) (Some t)) w q = (mkC (Some 32767) (Some t), (false, true))) as ->.
  { unfold vp9_frame, vp9_check, next_frame. cbn [last_tl0 last_pid]. destruct (w_pid w <=? 32767) eqn:Q; [|lia].
    cbn [last_tl0 last_pid]. unfold fits, U16, U8. destruct (t <? 256) eqn:Q2; [reflexivity|lia]. }
  constructor; [reflexivity|]. apply IH. intros w' q' H. apply (F w' q'). right. exact H.
Qed.
Print Assumptions C12_vp9_wrap_refuted.
(** And the base picture after the wrap of its 8-bit index is reported as discontinuous, though nothing was lost. *)
Theorem C12_vp9_base_wrap_refuted : exists ks, received (fun _ => 0) ks /\ ks = List.seq 0 3 /\
  decide vp9_frame (mkC None None) (combine (map (on_wire (fun _ => 0) 0 253) ks) [true; true; true]) = [(true, true); (true, true); (true, false)].
Proof.
  exists (List.seq 0 3). split; [|split; reflexivity]. cbn. repeat constructor; cbn; lia.
Qed.

(** Codecs without picture numbers (anything but VP8 and VP9; here one that accepts every payload):
    of two frames returned one after the other, the second is marked contiguous only if every
    sequence number between them was offered as padding.  (In-order arrival, or no hold back:
    see C11_order_refuted for the rest.) *)
Theorem C12_sequence_gaps_in_order : forall DS X CS (xnone : X) dep is_head is_tail hold_back (d : DS) (c : CS) ops b fs,
  (forall d p o x, exists d' r, dep d p o x = (d', Some r)) -> 0 < hold_back -> increasing ops ->
  run xnone dep is_head is_tail seq_check (new hold_back d c) ops = Ok (b, fs) -> gap_ok (offered ops) fs.
Proof. intros. eapply gaps_increasing; eauto. Qed.
Print Assumptions C12_sequence_gaps_in_order.
Theorem C12_sequence_gaps_hold_back_one : forall DS X CS (xnone : X) dep is_head is_tail (d : DS) (c : CS) ops b fs,
  (forall d p o x, exists d' r, dep d p o x = (d', Some r)) ->
  run xnone dep is_head is_tail seq_check (new 1 d c) ops = Ok (b, fs) -> gap_ok (offered ops) fs.
Proof. intros. eapply gaps_one; eauto. Qed.
Print Assumptions C12_sequence_gaps_hold_back_one.

(** A concrete stream with three layers, over a wrap of both numbers, with losses: base pictures
    are those divisible by 4. *)
Definition lay (k : nat) : Z := match (k mod 4)%nat with O => 0 | 2%nat => 1 | _ => 2 end.
Definition rx : list nat := [0; 1; 2; 4; 6; 8; 9; 16; 17]%nat.
Example C12_concrete : received lay rx /\
  decide vp8_frame vp8_start (combine (map (on_wire lay 32765 254) rx) (repeat false 9)) =
  [(true, true); (true, true); (true, true); (true, true); (false, true); (true, true); (true, true); (true, false); (true, true)].
Proof. split; [repeat constructor|vm_compute; reflexivity]. Qed.

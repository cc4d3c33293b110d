(** C48: the life cycle of data channels, for every SCTP implementation, every sequence of calls and
    every behaviour of the peer. *)
From Verif Require Import Base BaseFacts DcepModel SctpModel SctpSpec SctpProofs SctpProofs2 SctpProofs3 SctpProofs4 SctpProofs5 SctpProofs6 SctpProofs7 SctpProofs8.
From Verif Require ChanModel ChanProps.

(** Every event an application gets is allowed after what it has seen before: ChannelOpen at most once
    per channel, never after its ChannelClose; ChannelClose at most once; no data after ChannelClose nor
    after the application closed the announced channel; no buffered-amount-low after ChannelClose. *)
Theorem C48_events_in_order : forall A (P : proto A) w now ph os r tr,
  run P (rtc0 w now ph) os = Ok (r, tr) ->
  forall before u after, tr = before ++ IEv u :: after -> allowed before u.
Proof.
  intros A P w now ph os r tr H before u after E. destruct (run_spec P os _ _ _ _ (inv0 w now ph) H) as [_ X _ _ _ _]. apply (X _ _ _ E).
Qed.
Print Assumptions C48_events_in_order.

(** When the application has closed an announced channel, then by the time a poll has nothing more to
    give, ChannelClose has been delivered. *)
Theorem C48_close_is_reported : forall A (P : proto A) w now ph os r tr,
  run P (rtc0 w now ph) os = Ok (r, tr) ->
  forall before after, tr = before ++ IIdle :: after -> forall c, asked before c -> closed before c.
Proof.
  intros A P w now ph os r tr H before after E c K. destruct (run_spec P os _ _ _ _ (inv0 w now ph) H) as [_ _ X _ _ _]. apply (X _ _ E c K).
Qed.
Print Assumptions C48_close_is_reported.

(** From ChannelOpen to ChannelClose the channel handle can be had (Rtc::channel() is Some); it cannot
    after ChannelClose. A channel whose handle can be had is announced, or it is one the application
    created with a negotiated stream id. *)
Theorem C48_handle : forall A (P : proto A) w now ph os r tr,
  run P (rtc0 w now ph) os = Ok (r, tr) -> forall c,
  (announced tr c -> ~ closed tr c -> usable r c = true) /\
  (usable r c = true -> ~ closed tr c /\
     (announced tr c \/ exists cf id, In (ICall (ONew cf)) tr /\ c_negotiated cf = Some id)).
Proof.
  intros A P w now ph os r tr H c. destruct (run_spec P os _ _ _ _ (inv0 w now ph) H) as [I _ _ _ _ _]. cbn [app] in I. split.
  - intros AN NC. destruct (i_ann _ _ I c AN) as [X|X]; [contradiction|]. apply (usable_on r tr c I). exact X.
  - intro U. apply (usable_on r tr c I) in U as (E & s & e & O & L & W). split; [eapply not_closed; eauto|].
    apply look_in in L as [L ID]. pose proof (proj2 (i_base _ _ I) e L) as K. unfold eok in K. rewrite W in K. destruct K as (_ & c' & CB & K).
    assert (c' = c) as -> by (apply cbs_on in CB; [|apply (i_good _ _ I)]; rewrite ID in CB; exact (on_inj _ _ _ _ (i_good _ _ I) CB O)).
    destruct K as [K|(cf & CF & IB)]; [auto|right]. exists cf. destruct (run_confs P os _ _ _ _ _ H CF) as [X|X]; [discriminate|].
    unfold in_band in IB. destruct (c_negotiated cf) as [id|] eqn:N; [eauto|discriminate].
Qed.
Print Assumptions C48_handle.

(** ** A simple SCTP implementation for concrete runs: events to report, messages to read, streams. *)
Record toy := mkToy { y_evs : list pevent; y_msgs : list (Z * ppi * list Z); y_streams : list Z }.
Fixpoint take_msg (l : list (Z * ppi * list Z)) (id : Z) : option (ppi * list Z) * list (Z * ppi * list Z) :=
  match l with
  | [] => (None, [])
  | (i, p, b) :: r => if i =? id then (Some (p, b), r) else let (x, r') := take_msg r id in (x, (i, p, b) :: r')
  end.
Definition toyP : proto toy := {|
  p_transmit := fun w _ => (None, w);
  p_poll := fun w => match y_evs w with [] => None | e :: r => Some (e, mkToy r (y_msgs w) (y_streams w)) end;
  p_open := fun w id => if mem (y_streams w) id then (RExists, w) else (RNew, mkToy (y_evs w) (y_msgs w) (id :: y_streams w));
  p_stream := fun w id => mem (y_streams w) id;
  p_live := fun w id => mem (y_streams w) id;
  p_rel := fun w _ _ _ _ => (true, w);
  p_write := fun w _ _ _ => (true, w);
  p_read := fun w id => let (m, r) := take_msg (y_msgs w) id in
            match m with None => (RdNone, w) | Some (p, b) => (RdMsg p b, mkToy (y_evs w) r (y_streams w)) end;
  p_thr := fun w _ _ => (true, w);
  p_buffered := fun w _ => 0;
  p_close := fun w id => (true, mkToy (y_evs w) (y_msgs w) (rem (y_streams w) id));
  p_down := fun _ => false |}.
Definition toy0 : toy := mkToy [] [] [].
Definition cf_in : config := mkConfig [104; 105] true Reliable None [].
Definition cf_neg : config := mkConfig [110] true Reliable (Some 5) [].
(** a data packet arrives: the association reports [evs], holds messages [msgs], streams [ss] *)
Definition arrive evs msgs ss : @op toy := OInput false (mkToy evs msgs ss).
Definition poll : @op toy := OPoll 20 false.
Definition events (r : res (@rtc toy * list (@item toy))) : list (option uevent) :=
  match r with
  | Ok (_, tr) => flat_map (fun i => match i with IEv u => [Some u] | IIdle => [None] | _ => [] end) tr
  | _ => []
  end.

(** An in-band channel from creation to close, with a message each way. *)
Definition life : list (@op toy) :=
  [ONew cf_in; OConfirm 0; OInit true true toy0; OTimeout 1 toy0; poll;
   arrive [VReadable 0] [(0, PDcep, [2]); (0, PString, [65; 66])] [0]; poll; poll; poll;
   OWrite 0 true [1; 2; 3]; OClose 0; poll; poll].
Example C48_life : events (run toyP (rtc0 toy0 0 0) life) =
  [None; Some (UOpen 0 [104; 105]); Some (UData 0 false [65; 66]); None; Some (UClosed 0); None].
Proof. vm_compute. reflexivity. Qed.
(** The hypotheses of C48_close_is_reported occur: the last poll is idle, the channel was closed by the
    application after it was announced. *)
Example C48_close_case : exists r tr before, run toyP (rtc0 toy0 0 0) life = Ok (r, tr) /\ tr = before ++ [IIdle] /\
  asked before 0 /\ usable r 0 = false.
Proof.
  eexists _, _, _. split; [vm_compute; reflexivity|]. split; [|split].
  - match goal with |- ?l = _ => let n := constr:(removelast l) in let v := eval vm_compute in n in instantiate (1 := v); reflexivity end.
  - eexists [_;_;_;_;_;_;_;_;_;_;_;_;_;_;_;_;_;_;_;_], _. cbn [app]. split; [reflexivity|].
    exists [104; 105]. cbn. tauto.
  - vm_compute. reflexivity.
Qed.

(** A peer's channel: announced with the peer's label, reset by the peer. *)
Definition remote : list (@op toy) :=
  [OInit false true toy0; OTimeout 1 toy0;
   arrive [VReadable 1] [(1, PDcep, [3; 0; 0; 0; 0; 0; 0; 0; 0; 1; 0; 0; 120]); (1, PBinary, [7])] [1]; poll; poll;
   arrive [VFinished 1] [] [1]; poll; poll].
Example C48_remote : events (run toyP (rtc0 toy0 0 0) remote) =
  [Some (UOpen 0 [120]); Some (UData 0 true [7]); Some (UClosed 0); None].
Proof. vm_compute. reflexivity. Qed.

(** ** What does not hold *)

(** Data can come before ChannelOpen: a peer that has got the DCEP OPEN of an in-band channel may send
    data whose delivery overtakes its ACK (mod.rs:1026-1031 gives data out in every state). *)
Theorem C48_open_before_data_refuted : exists os r tr before b d after,
  run toyP (rtc0 toy0 0 0) os = Ok (r, tr) /\ tr = before ++ IEv (UData 0 b d) :: after /\ ~ announced before 0.
Proof.
  exists [ONew cf_in; OConfirm 0; OInit true true toy0; OTimeout 1 toy0; poll; arrive [VReadable 0] [(0, PString, [65])] [0]; poll].
  eexists _, _, (_ :: _ :: _ :: _ :: _ :: _ :: _ :: _ :: _ :: _ :: _ :: _ :: []), _, _, _. split; [vm_compute; reflexivity|]. split; [reflexivity|].
  intros (l & K). cbn in K. repeat (destruct K as [K|K]; [discriminate|]). destruct K.
Qed.
Print Assumptions C48_open_before_data_refuted.

(** A channel can become usable and never be announced: a channel with a negotiated stream id whose
    peer has sent something before it was opened here (mod.rs:521-546 opens it without an event). *)
Definition unannounced : list (@op toy) :=
  [OInit true true toy0; ONew cf_neg; OConfirm 0; arrive [VReadable 5] [] [5]; poll; OTimeout 1 (mkToy [] [] [5]); poll; poll].
Theorem C48_always_announced_refuted : exists r tr before,
  run toyP (rtc0 toy0 0 0) unannounced = Ok (r, tr) /\ tr = before ++ [IIdle] /\ usable r 0 = true /\ ~ announced tr 0.
Proof.
  eexists _, _, (_ :: _ :: _ :: _ :: _ :: _ :: _ :: _ :: _ :: _ :: _ :: []). split; [vm_compute; reflexivity|]. split; [reflexivity|]. split; [vm_compute; reflexivity|].
  intros (l & K). cbn in K. repeat (destruct K as [K|K]; [discriminate|]). destruct K.
Qed.
Print Assumptions C48_always_announced_refuted.

(** close_data_channel() before the channel has been given a stream has no effect: the channel opens
    afterwards (channel.rs:405-414 does nothing without a stream). *)
Theorem C48_close_early_refuted : exists os r tr before between after l,
  run toyP (rtc0 toy0 0 0) os = Ok (r, tr) /\ tr = before ++ ICall (OClose 0) :: between ++ IEv (UOpen 0 l) :: after /\
  In (ICall (ONew cf_in)) before /\ usable r 0 = true /\ ~ closed tr 0.
Proof.
  exists [ONew cf_in; OConfirm 0; OClose 0; OInit true true toy0; OTimeout 1 toy0; poll; arrive [VReadable 0] [(0, PDcep, [2])] [0]; poll; poll].
  eexists _, _, (_ :: _ :: []), (_ :: _ :: _ :: _ :: _ :: _ :: _ :: _ :: _ :: _ :: []), _, _. split; [vm_compute; reflexivity|]. split; [reflexivity|].
  split; [left; reflexivity|]. split; [vm_compute; reflexivity|].
  intro K. cbn in K. repeat (destruct K as [K|K]; [discriminate|]). destruct K.
Qed.
Print Assumptions C48_close_early_refuted.

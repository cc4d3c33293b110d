(** C45: what a sender report says, in terms of the calls and the packets that went out. *)
From Verif Require Import Base BaseFacts MtimeModel SendQueueModel ExtModel HeaderModel NackModel TxModel TxSpec.

(** The packets that carry media, for the first time or again; padding is left out. *)
Definition media_out (ys : list txout) : list (list Z * receipt) := filter (fun p => negb (rc_pad (snd p))) (packets ys).
(** Their payload octets; a retransmission starts with two octets that are not payload. *)
Definition octets (rs : Z) (ps : list (list Z * receipt)) : Z :=
  fold_right (fun p s => rc_size (snd p) - (if on_ssrc rs p then 2 else 0) + s) 0 ps.
(** Every poll knows the payload types of all packets written. *)
Definition all_known (ops : list txop) : Prop :=
  forall w now m en ps, In (XWrite w) ops -> In (XPoll now m en ps) ops -> known ps (w_pt w).
(** The packet written last. *)
Definition last_write (ops : list txop) : option rtpwrite :=
  fold_left (fun l o => match o with XWrite w => Some w | _ => l end) ops None.
(** The clock rate of the payload type of the media packet sent last. *)
Definition clock_after (ss : Z) (c : option Z) (x : txop * txout) : option Z :=
  match x with
  | (XPoll _ _ _ ps, YPacket b r) =>
      if ssrc (rc_hdr r) =? ss
      then match find (fun pr => p_pt pr =? payload_type (rc_hdr r)) ps with Some pr => Some (p_clock pr) | None => c end
      else c
  | _ => c
  end.
Definition clock_of (ss : Z) (ops : list txop) (ys : list txout) : option Z :=
  fold_left (clock_after ss) (combine ops ys) None.
(** The cname of the first timeout. *)
Definition cname_of (ops : list txop) : option (list Z) :=
  fold_left (fun c o => match c, o with None, XTimeout _ _ cn _ => Some cn | _, _ => c end) ops None.
(** The keyframe request (true: FIR) and the bitrate estimate received last and not yet polled. *)
Definition kf_pending (ops : list txop) : option bool :=
  fold_left (fun k o => match o with XRtcp _ FPli => Some false | XRtcp _ FFir => Some true | XPollKf | XResetSsrc _ _ _ _ => None | _ => k end) ops None.
Definition remb_pending (ops : list txop) : option Z :=
  fold_left (fun k o => match o with XRtcp _ (FRemb b) => Some b | XPollRemb | XResetSsrc _ _ _ _ => None | _ => k end) ops None.

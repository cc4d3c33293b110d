(** Reading a history of the peer connection: what its properties speak about. *)
From Verif Require Import Base RtcModel.

Definition acts {W} (h : list (op (W := W) * sres (W := W))) : list act := flat_map (fun p => o_acts (snd p)) h.
Definition outputs {W} (h : list (op (W := W) * sres (W := W))) : list output :=
  flat_map (fun p => match o_out (snd p) with Some y => [y] | None => [] end) h.

(** The fingerprint the peer must have: the last one set with the direct API, or the first one learned
    from SDP if none was set before. *)
Fixpoint in_force {W} (f : option fprint) (h : list (op (W := W) * sres (W := W))) : option fprint :=
  match h with
  | [] => f
  | (QFp g, _) :: r => in_force (Some g) r
  | (QSdpFp g, _) :: r => in_force (match f with None => Some g | Some _ => f end) r
  | _ :: r => in_force f r
  end.

(** The certificate seen is the one with the fingerprint in force. *)
Definition verified (a : act) : Prop := match a with ACert seen e => e = Some seen | _ => True end.
(** Starting the DTLS engine (start_dtls and the SDP calls). *)
Definition is_start (a : act) : bool := match a with ADtlsTick _ | ADtlsRecv _ => true | _ => false end.

(** The address ICE nominated last. *)
Fixpoint nominated (a : option addr) (t : list act) : option addr :=
  match t with [] => a | ANominated b :: r => nominated (Some b) r | _ :: r => nominated a r end.

(** Packets put out by the DTLS engine, and those sent. *)
Definition made (t : list act) : list (list Z) := flat_map (fun a => match a with APacket p => [p] | _ => [] end) t.
Definition sent (t : list act) : list (list Z) := flat_map (fun a => match a with ASendDtls p => [p] | _ => [] end) t.

(** DTLS came up *)
Definition ups (t : list act) : nat := length (filter (fun a => match a with AUp => true | _ => false end) t).
Definition connecteds (l : list output) : nat := length (filter (fun y => match y with YEvent EConnected => true | _ => false end) l).

(** Times the components were told, in order. *)
Definition ticks (t : list act) : list Z := flat_map (fun a => match a with ATick _ n => [n] | _ => [] end) t.
Fixpoint ascending (l : list Z) : Prop :=
  match l with [] => True | x :: r => (forall y, In y r -> x <= y) /\ ascending r end.

(** The application was told, or was answered, that the connection is closing. *)
Definition close_seen {W} (p : op (W := W) * sres (W := W)) : Prop :=
  (fst p = QClose /\ o_ok (snd p) = true) \/ o_out (snd p) = Some (YEvent EClosed).

(** The instants at which the components want to be called, with the reasons. *)
Definition wanted {W} (C : comps W) (r : rtc W) : list (option Z * Z) :=
  [(r_dto r, R_DTLS); (c_ice_timeout C (r_w r), R_ICE); c_ses_timeout C (r_w r); (c_sctp_timeout C (r_w r), R_SCTP);
   (c_chan_timeout C (r_w r), R_CHAN); (c_stats_timeout C (r_w r), R_STATS)].
(** [t] is the instant to wake up at: never before the present, not after the first instant wanted, and
    not before it either. *)
Definition wake_up (now never : Z) (l : list (option Z * Z)) (t reason : Z) : Prop :=
  now <= t /\ (forall u k, In (Some u, k) l -> t <= Z.max now u) /\ ((exists u, In (Some u, reason) l /\ t = Z.max now u) \/ ((forall u k, ~ In (Some u, k) l) /\ reason = R_NOT /\ t = Z.max now never)).

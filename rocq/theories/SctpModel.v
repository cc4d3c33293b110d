(** Model of the data channel part of str0m.
    /repo/src/sctp/mod.rs (RtcSctp), /repo/src/channel.rs (ChannelHandler: ChanModel) and the part of
    /repo/src/lib.rs that connects them (1502-1521, 1703-1780, 2022-2036, 2112-2124),
    /repo/src/change/direct.rs:171-180.
    The crate sctp-proto (Endpoint + Association) is not modelled: it is an arbitrary state [A] with
    arbitrary answers ([proto]), and every theorem quantifies over it. *)
From Verif Require Import Base DcepModel.
From Verif Require ChanModel.

(** sctp_proto::PayloadProtocolIdentifier (external crate); [POther] stands for all remaining values. *)
Inductive ppi := PDcep | PString | PBinary | PStringEmpty | PBinaryEmpty | POther.

(** The events of sctp_proto that mod.rs:770-828 tells apart. [VReadable] is Readable and Writable
    (787), [VFinished] is Finished and Stopped (795). *)
Inductive pevent :=
| VConnected | VLost | VReadable (id : Z) | VFinished (id : Z) | VResetComplete (id : Z) | VLow (id : Z) | VOther.

(** The answers of Association::open_stream that mod.rs:840-967 tells apart. *)
Inductive openres := RNew | RExists | RResetPending | RFail.

(** Stream::read followed by Chunks::read (mod.rs:1261-1269). *)
Inductive readres := RdNone | RdErr | RdMsg (p : ppi) (buf : list Z).

(** sctp_proto's Endpoint and Association. Simplifications: the two transmit queues are one; a write
    is accepted whole or fails (the asserts mod.rs:865, 1066 and channel.rs:69-73); the length check
    assert (mod.rs:1269) and datagrams for an association nobody has (mod.rs:691-693, expect) are left out. *)
Record proto (A : Type) := mkProto {
  p_transmit : A -> Z -> option (list (list Z)) * A;    (* poll_transmit, mod.rs:754-760 *)
  p_poll : A -> option (pevent * A);                    (* Association::poll *)
  p_open : A -> Z -> openres * A;                       (* Association::open_stream *)
  p_stream : A -> Z -> bool;                            (* Association::stream is Ok *)
  p_live : A -> Z -> bool;                              (* is_readable() || is_writable() *)
  p_rel : A -> Z -> bool -> rtype -> Z -> bool * A;     (* Stream::set_reliability_params *)
  p_write : A -> Z -> ppi -> list Z -> bool * A;        (* Stream::write_with_ppi *)
  p_read : A -> Z -> readres * A;
  p_thr : A -> Z -> Z -> bool * A;                      (* set_buffered_amount_low_threshold *)
  p_buffered : A -> Z -> Z;                             (* Stream::buffered_amount, 0 on error *)
  p_close : A -> Z -> bool * A;                         (* Stream::close *)
  p_down : A -> bool                                    (* is_closing() || is_closed() *)
}.
Arguments p_transmit {A}. Arguments p_poll {A}. Arguments p_open {A}. Arguments p_stream {A}.
Arguments p_live {A}. Arguments p_rel {A}. Arguments p_write {A}. Arguments p_read {A}.
Arguments p_thr {A}. Arguments p_buffered {A}. Arguments p_close {A}. Arguments p_down {A}.

(** mod.rs:67-73 *)
Inductive sstate := Uninited | AwaitRemote | AwaitEstablished | Established.
(** mod.rs:169-182 *)
Inductive estate := AwaitOpen | AwaitConfig | AwaitDcepAck | EOpen | EClosed.
Definition estate_eqb (a b : estate) : bool :=
  match a, b with
  | AwaitOpen, AwaitOpen | AwaitConfig, AwaitConfig | AwaitDcepAck, AwaitDcepAck | EOpen, EOpen | EClosed, EClosed => true
  | _, _ => false
  end.
(** mod.rs:108-115 *)
Inductive thr := Unconfigured | Desired (v : Z) | Configured (v : Z).

(** mod.rs:84-100 *)
Record entry := mkEntry {
  e_id : Z; e_conf : option config; e_state : estate; e_close : bool (* do_close *);
  e_deadline : option Z; e_thr : thr
}.

(** mod.rs:38-61; [s_assoc] is assoc.is_some(), the association itself is in [s_world] with the
    endpoint. reset_pending is a HashSet: a list without order. Times in nanoseconds. Not modelled:
    the SNAP init data and the maximum message size. *)
Record sctp (A : Type) := mkSctp {
  s_st : sstate; s_world : A; s_assoc : bool; s_entries : list entry;
  s_rpend : list Z; s_rcomp : list Z; s_pushed : option (list (list Z)); s_now : Z; s_client : bool
}.
Arguments mkSctp {A}. Arguments s_st {A}. Arguments s_world {A}. Arguments s_assoc {A}. Arguments s_entries {A}.
Arguments s_rpend {A}. Arguments s_rcomp {A}. Arguments s_pushed {A}. Arguments s_now {A}. Arguments s_client {A}.

(** mod.rs:131-160 *)
Inductive sevent :=
| STransmit (packets : list (list Z)) | SOpen (id : Z) (label : list Z) | SClose (id : Z) (reset_pending : bool)
| SResetComplete (id : Z) | SData (id : Z) (binary : bool) (data : list Z) | SLow (id : Z) | SLost.

(** What is done to the association's streams (ghost output of the model). *)
Inductive act :=
| AOpened (id : Z)                                   (* open_stream gave a new stream *)
| ARel (id : Z) (unordered : bool) (t : rtype) (param : Z)
| AWrite (id : Z) (p : ppi) (buf : list Z)           (* accepted write *)
| ARead (id : Z) (p : ppi) (buf : list Z)            (* message taken out *)
| AClose (id : Z).                                   (* Stream::close called *)

(** Setters. *)
Definition e_set_state (e : entry) (st : estate) := mkEntry (e_id e) (e_conf e) st (e_close e) (e_deadline e) (e_thr e).
Definition e_set_close (e : entry) := mkEntry (e_id e) (e_conf e) (e_state e) true (e_deadline e) (e_thr e).
Definition e_set_conf (e : entry) (c : config) := mkEntry (e_id e) (Some c) (e_state e) (e_close e) (e_deadline e) (e_thr e).
Definition e_set_deadline (e : entry) (d : option Z) := mkEntry (e_id e) (e_conf e) (e_state e) (e_close e) d (e_thr e).
Definition e_set_thr (e : entry) (t : thr) := mkEntry (e_id e) (e_conf e) (e_state e) (e_close e) (e_deadline e) t.
Definition s_set_st {A} (s : sctp A) st := mkSctp st (s_world s) (s_assoc s) (s_entries s) (s_rpend s) (s_rcomp s) (s_pushed s) (s_now s) (s_client s).
Definition s_set_world {A} (s : sctp A) (w : A) := mkSctp (s_st s) w (s_assoc s) (s_entries s) (s_rpend s) (s_rcomp s) (s_pushed s) (s_now s) (s_client s).
Definition s_set_entries {A} (s : sctp A) es := mkSctp (s_st s) (s_world s) (s_assoc s) es (s_rpend s) (s_rcomp s) (s_pushed s) (s_now s) (s_client s).
Definition s_set_resets {A} (s : sctp A) rp rc := mkSctp (s_st s) (s_world s) (s_assoc s) (s_entries s) rp rc (s_pushed s) (s_now s) (s_client s).
Definition s_set_pushed {A} (s : sctp A) p := mkSctp (s_st s) (s_world s) (s_assoc s) (s_entries s) (s_rpend s) (s_rcomp s) p (s_now s) (s_client s).
Definition s_set_now {A} (s : sctp A) t := mkSctp (s_st s) (s_world s) (s_assoc s) (s_entries s) (s_rpend s) (s_rcomp s) (s_pushed s) t (s_client s).

(** mod.rs:30, 272, 278 *)
Definition MAX_BUFFERED : Z := 131072.
Definition OPEN_TIMEOUT : Z := 10000000000.
Definition RETRY_INTERVAL : Z := 500000000.

(** mod.rs:1218-1228 (the entries are sorted by id, so the binary search finds the entry if there is one) *)
Definition entry_by_id (es : list entry) (id : Z) : option entry := find (fun e => e_id e =? id) es.
(** the same entry, changed in place *)
Fixpoint upd_entry (es : list entry) (id : Z) (f : entry -> entry) : list entry :=
  match es with
  | [] => []
  | e :: r => if e_id e =? id then f e :: r else e :: upd_entry r id f
  end.
(** mod.rs:1238-1250: insert at the place binary_search gives *)
Fixpoint insert_entry (es : list entry) (n : entry) : list entry :=
  match es with
  | [] => [n]
  | e :: r => if e_id n <? e_id e then n :: es else e :: insert_entry r n
  end.
(** mod.rs:1230-1256 *)
Definition stream_entry (es : list entry) (id : Z) (st : estate) : list entry :=
  match entry_by_id es id with
  | Some _ => es
  | None => insert_entry es (mkEntry id None st false None Unconfigured)
  end.

(** mod.rs:708, 748 *)
Definition retain {A} (s : sctp A) : sctp A :=
  s_set_entries s (filter (fun e => negb (estate_eqb (e_state e) EClosed)) (s_entries s)).

Definition mem (l : list Z) (x : Z) : bool := existsb (Z.eqb x) l.
Definition add (l : list Z) (x : Z) : list Z := if mem l x then l else l ++ [x].
Definition rem (l : list Z) (x : Z) : list Z := filter (fun y => negb (y =? x)) l.

Section Sctp.
Context {A : Type} (P : proto A).

(** mod.rs:1180-1195; given the association exists iff [assoc]. Result: a reset is outstanding. *)
Definition propagate_close (assoc : bool) (w : A) (rp : list Z) (id : Z) : bool * A * list Z * list act :=
  if assoc && p_stream P w id then
    let (ok, w') := p_close P w id in
    let rp' := if ok then add rp id else rp in
    (mem rp' id, w', rp', [AClose id])
  else (mem rp id, w, rp, []).

(** mod.rs:243-262 *)
Definition configure (w : A) (e : entry) : res (bool * A * entry * list act) :=
  match e_conf e with
  | None => Panic
  | Some c =>
      let d := dcep_of_config c in
      let (ok, w') := p_rel P w (e_id e) (d_unordered d) (d_type d) (d_param d) in
      Ok (ok, w', (if ok then e else e_set_close e), [ARel (e_id e) (d_unordered d) (d_type d) (d_param d)])
  end.

(** What a visit of one entry in the loop mod.rs:835-1120 leads to: the next entry, start over
    ('restart), or an event. *)
Inductive out := Cont | Restart | Emit (ev : sevent).
Record vres := mkV { v_e : entry; v_w : A; v_rp : list Z; v_out : out; v_acts : list act }.

(** mod.rs:845-851, 878-884, 932-939, 947-953, 958-965, 984-990, 1080-1086 *)
Definition shut (w : A) (rp : list Z) (e : entry) (t : list act) : vres :=
  match propagate_close true w rp (e_id e) with
  | (pending, w', rp', t') => mkV (e_set_state e EClosed) w' rp' (Emit (SClose (e_id e) pending)) (t ++ t')
  end.

Definition in_band (c : config) : bool := match c_negotiated c with None => true | Some _ => false end.

(** mod.rs:970-980 (config expect, assert(!in_band)) *)
Definition opened_out_of_band (w : A) (rp : list Z) (e : entry) (t : list act) : res vres :=
  match e_conf e with
  | None => Panic
  | Some c => if in_band c then Panic
              else Ok (mkV (e_set_state e EOpen) w rp (Emit (SOpen (e_id e) (c_label c))) t)
  end.

(** mod.rs:838-981, the entry is AwaitOpen *)
Definition visit_open (now : Z) (w : A) (rp : list Z) (e : entry) : res vres :=
  match p_open P w (e_id e) with
  | (RNew, w0) =>
      do (ok, w1, e1, t) <- configure w0 (e_set_deadline e None) ;
      if negb ok then Ok (shut w1 rp e1 (AOpened (e_id e) :: t))
      else
        match e_conf e1 with
        | None => Panic
        | Some c =>
            if in_band c then
              do buf <- send_open c ;
              let (wok, w2) := p_write P w1 (e_id e) PDcep buf in
              if wok then Ok (mkV (e_set_state e1 AwaitDcepAck) w2 rp Restart (AOpened (e_id e) :: t ++ [AWrite (e_id e) PDcep buf]))
              else Ok (shut w2 rp (e_set_close e1) (AOpened (e_id e) :: t))
            else opened_out_of_band w1 rp e1 (AOpened (e_id e) :: t)
        end
  | (RFail, w0) => Ok (shut w0 rp (e_set_close e) [])
  | (r, w0) =>
      match e_conf e with
      | None => Panic
      | Some c =>
          let pending := match r with RResetPending => true | _ => false end in
          let stale := negb pending && (p_stream P w0 (e_id e) && negb (p_live P w0 (e_id e))) in
          if in_band c || stale || pending then
            let deadline := match e_deadline e with Some d => d | None => now + OPEN_TIMEOUT end in
            let e1 := e_set_deadline e (Some deadline) in
            if now <? deadline then Ok (mkV e1 w0 rp Cont [])
            else Ok (shut w0 rp (e_set_close e1) [])
          else if negb (p_stream P w0 (e_id e)) then Panic
          else
            do (ok, w1, e1, t) <- configure w0 e ;
            if negb ok then Ok (shut w1 rp e1 t)
            else opened_out_of_band w1 rp e1 t
      end
  end.

(** mod.rs:1021-1025 *)
Definition is_binary (p : ppi) : bool := match p with PBinary | PBinaryEmpty => true | _ => false end.
(** mod.rs:1271-1275 and 1285-1293 *)
Definition adjust (p : ppi) (buf : list Z) : list Z := match p with PStringEmpty | PBinaryEmpty => [] | _ => buf end.

(** mod.rs:1033-1115: a DCEP message was read *)
Definition visit_dcep (w : A) (rp : list Z) (e : entry) (buf : list Z) (t : list act) : res vres :=
  match e_state e with
  | AwaitConfig =>
      match open_read buf with
      | Panic => Panic
      | Err => Ok (mkV (e_set_close e) w rp Cont t)
      | Ok d =>
          let e1 := match e_conf e with None => e_set_conf e (config_of_dcep d) | Some _ => e end in
          do (ok, w1, e2, t1) <- configure w e1 ;
          if negb ok then Ok (mkV e2 w1 rp Cont (t ++ t1))
          else
            do ack <- ack_write 1 ;
            let (wok, w2) := p_write P w1 (e_id e) PDcep ack in
            if wok then Ok (mkV (e_set_state e2 EOpen) w2 rp (Emit (SOpen (e_id e) (d_label d))) (t ++ t1 ++ [AWrite (e_id e) PDcep ack]))
            else Ok (shut w2 rp (e_set_close e2) (t ++ t1))
      end
  | AwaitDcepAck =>
      match ack_read buf with
      | Panic => Panic
      | Err => Ok (mkV (e_set_close e) w rp Cont t)
      | Ok _ => match e_conf e with
                | None => Panic
                | Some c => Ok (mkV (e_set_state e EOpen) w rp (Emit (SOpen (e_id e) (c_label c))) t)
                end
      end
  | _ => Ok (mkV (e_set_close e) w rp Cont t)
  end.

(** mod.rs:1016-1031, 1117-1118 *)
Definition visit_read (w : A) (rp : list Z) (e : entry) : res vres :=
  match p_read P w (e_id e) with
  | (RdNone, w1) => Ok (mkV e w1 rp Cont [])
  | (RdErr, w1) => Ok (mkV (e_set_close e) w1 rp Cont [])
  | (RdMsg p buf, w1) =>
      let t := [ARead (e_id e) p buf] in
      match p with
      | POther => Ok (mkV (e_set_close e) w1 rp Cont t)
      | PDcep => visit_dcep w1 rp e buf t
      | _ => Ok (mkV e w1 rp (Emit (SData (e_id e) (is_binary p) (adjust p buf))) t)
      end
  end.

(** mod.rs:836-1119, one turn of the loop over the entries *)
Definition visit (now : Z) (w : A) (rp : list Z) (e : entry) : res vres :=
  if estate_eqb (e_state e) AwaitOpen then visit_open now w rp e
  else if e_close e && negb (estate_eqb (e_state e) EClosed) then Ok (shut w rp e [])
  else if negb (p_stream P w (e_id e)) then Ok (mkV (e_set_close e) w rp Cont [])
  else
    match e_thr e with
    | Desired x =>
        let (ok, w1) := p_thr P w (e_id e) x in
        if ok then visit_read w1 rp (e_set_thr e (Configured x))
        else Ok (mkV (e_set_thr (e_set_close e) Unconfigured) w1 rp Cont [])
    | _ => visit_read w rp e
    end.

(** mod.rs:835-1120, the loop *)
Record lres := mkL { l_es : list entry; l_w : A; l_rp : list Z; l_out : out; l_acts : list act }.
Fixpoint scan (now : Z) (w : A) (rp : list Z) (es : list entry) : res lres :=
  match es with
  | [] => Ok (mkL [] w rp Cont [])
  | e :: r =>
      do v <- visit now w rp e ;
      match v_out v with
      | Cont => do l <- scan now (v_w v) (v_rp v) r ;
                Ok (mkL (v_e v :: l_es l) (l_w l) (l_rp l) (l_out l) (v_acts v ++ l_acts l))
      | o => Ok (mkL (v_e v :: r) (v_w v) (v_rp v) o (v_acts v))
      end
  end.

(** mod.rs:770-828: the association's events. [Err]: out of fuel. *)
Fixpoint drain (fuel : nat) (s : sctp A) : res (sctp A * out) :=
  match fuel with
  | O => Err
  | S f =>
      match p_poll P (s_world s) with
      | None => Ok (s, Cont)
      | Some (ev, w) =>
          let s := s_set_world s w in
          match ev with
          | VConnected => Ok (s_set_st s Established, Restart)
          | VLost => Ok (s_set_resets s [] [], Emit SLost)
          | VReadable id => drain f (s_set_entries s (stream_entry (s_entries s) id AwaitConfig))
          | VFinished id =>
              let s1 := s_set_resets s (add (s_rpend s) id) (s_rcomp s) in
              drain f (s_set_entries s1 (upd_entry (s_entries s1) id
                (fun e => if negb (estate_eqb (e_state e) EClosed) && negb (estate_eqb (e_state e) AwaitOpen)
                          then e_set_close e else e)))
          | VResetComplete id => drain f (s_set_resets s (rem (s_rpend s) id) (s_rcomp s ++ [id]))
          | VLow id => Ok (s, Emit (SLow id))
          | VOther => drain f s
          end
      end
  end.

(** mod.rs:734-1130. [Err]: out of fuel (see C48_poll_returns). *)
Fixpoint do_poll (fuel : nat) (s : sctp A) : res (option sevent * sctp A * list act) :=
  match fuel with
  | O => Err
  | S f =>
      match s_st s with
      | Uninited => Ok (None, s, [])
      | _ =>
          let s1 := retain s in
          match s_pushed s1 with
          | Some t => Ok (Some (STransmit t), s_set_pushed s1 None, [])
          | None =>
              let (tr, w) := p_transmit P (s_world s1) (s_now s1) in
              let s2 := s_set_world s1 w in
              match tr with
              | Some packets => Ok (Some (STransmit packets), s2, [])
              | None =>
                  if match s_st s2 with AwaitEstablished | Established => false | _ => true end then Ok (None, s2, [])
                  else if negb (s_assoc s2) then Ok (None, s2, [])
                  else
                    do (s3, o) <- drain f s2 ;
                    match o with
                    | Emit ev => Ok (Some ev, s3, [])
                    | Restart => do_poll f s3
                    | Cont =>
                        match s_st s3 with
                        | Established =>
                            do l <- scan (s_now s3) (s_world s3) (s_rpend s3) (s_entries s3) ;
                            let s4 := s_set_resets (s_set_world (s_set_entries s3 (l_es l)) (l_w l)) (l_rp l) (s_rcomp s3) in
                            match l_out l with
                            | Emit ev => Ok (Some ev, s4, l_acts l)
                            | Restart => do (ev, s5, t) <- do_poll f s4 ; Ok (ev, s5, l_acts l ++ t)
                            | Cont =>
                                match s_rcomp s4 with
                                | id :: r => Ok (Some (SResetComplete id), s_set_resets s4 (s_rpend s4) r, l_acts l)
                                | [] => Ok (None, s4, l_acts l)
                                end
                            end
                        | _ => Ok (None, s3, [])
                        end
                    end
              end
          end
      end
  end.

(** mod.rs:504-555 *)
Definition open_stream (s : sctp A) (id : Z) (c : config) : res (sctp A * list act) :=
  let es := stream_entry (s_entries s) id AwaitOpen in
  let put e w t := Ok (s_set_world (s_set_entries s (upd_entry es id (fun _ => e))) w, t) in
  match entry_by_id es id with
  | None => Panic
  | Some e =>
      match e_conf e with
      | Some _ => put (e_set_close e) (s_world s) []
      | None =>
          let e1 := e_set_conf e c in
          if estate_eqb (e_state e1) AwaitConfig then
            if in_band c then put (e_set_close e1) (s_world s) []
            else if negb (s_assoc s) then put (e_set_close e1) (s_world s) []
            else if negb (p_stream P (s_world s) id) then put (e_set_close e1) (s_world s) []
            else
              do (ok, w, e2, t) <- configure (s_world s) e1 ;
              put (if ok then e_set_state e2 EOpen else e2) w t
          else put e1 (s_world s) []
      end
  end.

(** mod.rs:558-565 *)
Definition close_stream (s : sctp A) (id : Z) : sctp A * list act :=
  match entry_by_id (s_entries s) id with
  | None => (s, [])
  | Some _ =>
      match propagate_close (s_assoc s) (s_world s) (s_rpend s) id with
      | (_, w, rp, t) =>
          (s_set_resets (s_set_world (s_set_entries s (upd_entry (s_entries s) id e_set_close)) w) rp (s_rcomp s), t)
      end
  end.

(** mod.rs:579-589 *)
Definition is_open (s : sctp A) (id : Z) : bool :=
  match s_st s with
  | Established => match entry_by_id (s_entries s) id with Some e => estate_eqb (e_state e) EOpen | None => false end
  | _ => false
  end.

(** mod.rs:592-610 *)
Definition available (s : sctp A) : Z :=
  if s_assoc s then
    Z.max 0 (MAX_BUFFERED - fold_right Z.add 0
      (map (fun e => if p_stream P (s_world s) (e_id e) then p_buffered P (s_world s) (e_id e) else 0) (s_entries s)))
  else 0.

(** mod.rs:630-640 *)
Definition write_ppi (binary : bool) (buf : list Z) : ppi :=
  match binary, buf with
  | true, [] => PBinaryEmpty | true, _ => PBinary
  | false, [] => PStringEmpty | false, _ => PString
  end.

(** mod.rs:612-643 *)
Definition write (s : sctp A) (id : Z) (binary : bool) (buf : list Z) : res (sctp A * list act) :=
  match s_st s with
  | Established =>
      if negb (s_assoc s) || p_down P (s_world s) then Err
      else
        match entry_by_id (s_entries s) id with
        | None => Panic
        | Some e =>
            if negb (estate_eqb (e_state e) EOpen) then Err
            else if negb (p_stream P (s_world s) id) then Err
            else
              let p := write_ppi binary buf in
              let (ok, w) := p_write P (s_world s) id p buf in
              if ok then Ok (s_set_world s w, [AWrite id p buf]) else Err
        end
  | _ => Err
  end.

(** mod.rs:118-128 *)
Definition thr_set (t : thr) (v : Z) : thr :=
  match t with
  | Unconfigured => Desired v
  | Desired w => if negb (v =? w) then Desired v else t
  | Configured x => if negb (v =? x) then Desired v else t
  end.
(** mod.rs:657-663 *)
Definition set_threshold (s : sctp A) (id v : Z) : res (sctp A) :=
  match entry_by_id (s_entries s) id with
  | None => Panic
  | Some _ => Ok (s_set_entries s (upd_entry (s_entries s) id (fun e => e_set_thr e (thr_set (e_thr e) v))))
  end.

(** mod.rs:338-413: [snap] with both INIT chunks, or the client, or the server path; [w] is the
    endpoint with the new association. connect() failing is left out. *)
Definition init (s : sctp A) (client snap : bool) (now : Z) (w : A) : res (sctp A) :=
  match s_st s with
  | Uninited =>
      Ok (if snap then mkSctp Established w true (s_entries s) (s_rpend s) (s_rcomp s) (s_pushed s) now client
          else if client then mkSctp AwaitEstablished w true (s_entries s) (s_rpend s) (s_rcomp s) (s_pushed s) now client
          else mkSctp AwaitRemote (s_world s) (s_assoc s) (s_entries s) (s_rpend s) (s_rcomp s) (s_pushed s) now client)
  | _ => Err
  end.

(** mod.rs:665-697; [new]: the datagram made the endpoint create an association; [w]: the endpoint
    and association after the datagram. *)
Definition handle_input (s : sctp A) (new : bool) (w : A) : sctp A :=
  if new && negb (s_assoc s)
  then mkSctp AwaitEstablished w true (s_entries s) (s_rpend s) (s_rcomp s) (s_pushed s) (s_now s) (s_client s)
  else s_set_world s w.

(** mod.rs:699-722; [w]: endpoint and association after their own timeout handling. *)
Definition handle_timeout (s : sctp A) (now : Z) (w : A) : sctp A :=
  match s_st s with
  | Uninited => s
  | _ => s_set_world (retain (s_set_now s now)) w
  end.

(** mod.rs:1132-1153; [assoc_timeout]: the association's own. *)
Definition poll_timeout (s : sctp A) (assoc_timeout : option Z) : option Z :=
  let retry := existsb (fun e => estate_eqb (e_state e) AwaitOpen && match e_deadline e with Some _ => true | None => false end) (s_entries s) in
  match assoc_timeout, retry with
  | Some a, true => Some (Z.min a (s_now s + RETRY_INTERVAL))
  | a, false => a
  | None, true => Some (s_now s + RETRY_INTERVAL)
  end.

(** ** The peer connection's data channel API *)

(** Events the application gets (lib.rs Event::ChannelOpen, ChannelClose, ChannelData,
    ChannelBufferedAmountLow, Closed). *)
Inductive uevent :=
| UOpen (c : Z) (label : list Z) | UClosed (c : Z) | UData (c : Z) (binary : bool) (data : list Z) | ULow (c : Z) | ULost.

(** The Rtc: channel handler, the configurations of the channels created here, SCTP, last_now. *)
Record rtc := mkRtc { r_h : ChanModel.handler; r_confs : list (Z * config); r_s : sctp A; r_now : Z }.

Definition conf_of (l : list (Z * config)) (c : Z) : option config :=
  match find (fun p => fst p =? c) l with Some p => Some (snd p) | None => None end.

(** What the application and the network do. [OInput]: a datagram for SCTP (lib.rs:1681);
    [OPoll]: one turn of the loop lib.rs:1703-1780 ([blocked]: DTLS cannot take the packet now). *)
Inductive op :=
| ONew (c : config)                     (* change/sdp.rs:450; the first half of create_data_channel *)
| OConfirm (id : Z)                     (* change/sdp.rs:225, 690; the second half *)
| OClose (id : Z)                       (* close_data_channel *)
| OInit (client snap : bool) (w : A)
| OInput (new : bool) (w : A)
| OTimeout (now : Z) (w : A)
| OPoll (fuel : nat) (blocked : bool)
| OWrite (id : Z) (binary : bool) (buf : list Z)
| OThreshold (id v : Z).

(** lib.rs:2112-2124 (the Rtc is alive) *)
Definition usable (r : rtc) (c : Z) : bool :=
  match ChanModel.stream_by_channel (r_h r) c with Some s => is_open (r_s r) s | None => false end.

(** channel.rs:360-376: open the streams given by ChanModel.handle_timeout *)
Fixpoint open_all (s : sctp A) (confs : list (Z * config)) (l : list (Z * Z)) : res (sctp A * list act) :=
  match l with
  | [] => Ok (s, [])
  | (c, id) :: r =>
      match conf_of confs c with
      | None => Panic
      | Some cf => do (s1, t) <- open_stream s id cf ; do (s2, t2) <- open_all s1 confs r ; Ok (s2, t ++ t2)
      end
  end.

(** lib.rs:1706-1735: DTLS takes the first packet (or nothing); the rest is pushed back
    (mod.rs:1155-1159, assert). *)
Definition push_back (s : sctp A) (blocked : bool) (packets : list (list Z)) : res (sctp A) :=
  let rest := if blocked then packets else tl packets in
  match rest with
  | [] => Ok s
  | _ => match s_pushed s with Some _ => Panic | None => Ok (s_set_pushed s (Some rest)) end
  end.

(** Result of one step: the new state, the application's events, what was done to the streams, and
    whether sctp.poll() had nothing (the loop lib.rs:1703 ends). *)
Record sres := mkS { o_r : rtc; o_evs : list uevent; o_acts : list act; o_idle : bool }.
Definition quiet (r : rtc) (t : list act) : sres := mkS r [] t false.

Definition with_s (r : rtc) (s : sctp A) : rtc := mkRtc (r_h r) (r_confs r) s (r_now r).
Definition with_h (r : rtc) (h : ChanModel.handler) : rtc := mkRtc h (r_confs r) (r_s r) (r_now r).

(** lib.rs:1703-1780, for one event of sctp.poll() *)
Definition translate (r : rtc) (blocked : bool) (ev : sevent) : res (rtc * list uevent) :=
  match ev with
  | STransmit pk => do s <- push_back (r_s r) blocked pk ; Ok (with_s r s, [])
  | SOpen id label =>
      let h := ChanModel.ensure_channel_id_for (r_h r) id in
      match ChanModel.channel_by_stream h id with
      | None => Panic
      | Some c => Ok (with_h r h, [UOpen c label])
      end
  | SClose id pending =>
      match ChanModel.channel_by_stream (r_h r) id with
      | None => Ok (r, [])
      | Some c => Ok (with_h r (ChanModel.remove_channel (r_h r) c pending), [UClosed c])
      end
  | SResetComplete id => Ok (with_h r (ChanModel.stream_reset_complete (r_h r) id), [])
  | SLost => Ok (with_h r (ChanModel.association_lost (r_h r)), [ULost])
  | SData id binary data =>
      match ChanModel.channel_by_stream (r_h r) id with
      | None => Ok (r, [])
      | Some c => Ok (r, [UData c binary data])
      end
  | SLow id =>
      match ChanModel.channel_by_stream (r_h r) id with
      | None => Ok (r, [])
      | Some c => Ok (r, [ULow c])
      end
  end.

Definition step (r : rtc) (o : op) : res sres :=
  match o with
  | ONew c =>
      do (h, id) <- ChanModel.new_channel (r_h r) (c_negotiated c) ;
      Ok (quiet (mkRtc h ((id, c) :: r_confs r) (r_s r) (r_now r)) [])
  | OConfirm id =>
      match conf_of (r_confs r) id with
      | None => Panic
      | Some _ => do h <- ChanModel.confirm (r_h r) id ; Ok (quiet (with_h r h) [])
      end
  | OClose id =>
      (* channel.rs:405-414 *)
      match ChanModel.stream_by_channel (r_h r) id with
      | None => Ok (quiet r [])
      | Some sid => let (s, t) := close_stream (r_s r) sid in Ok (quiet (with_s r s) t)
      end
  | OInit client snap w =>
      (* lib.rs:1502-1521 *)
      match s_st (r_s r) with
      | Uninited => do s <- init (r_s r) client snap (r_now r) w ; Ok (quiet (with_s r s) [])
      | _ => Ok (quiet r [])
      end
  | OInput new w => Ok (quiet (with_s r (handle_input (r_s r) new w)) [])
  | OTimeout now w =>
      (* lib.rs:2025-2036, channel.rs:256-266 *)
      if now <? r_now r then Ok (quiet r [])
      else
        let s := handle_timeout (r_s r) now w in
        let inited := match s_st s with Uninited => false | _ => true end in
        let (h, opened) := ChanModel.handle_timeout (r_h r) inited (s_client s) in
        do (s1, t) <- open_all s (r_confs r) opened ;
        Ok (quiet (mkRtc h (r_confs r) s1 now) t)
  | OPoll fuel blocked =>
      do (ev, s, t) <- do_poll fuel (r_s r) ;
      match ev with
      | None => Ok (mkS (with_s r s) [] t true)
      | Some ev => do (r', us) <- translate (with_s r s) blocked ev ; Ok (mkS r' us t false)
      end
  | OWrite id binary buf =>
      (* channel.rs:58-76 through lib.rs:2112; Err: the write was refused *)
      if negb (usable r id) then Ok (quiet r [])
      else
        match ChanModel.stream_by_channel (r_h r) id with
        | None => Panic
        | Some sid =>
            if available (r_s r) <? zlen buf then Ok (quiet r [])
            else match write (r_s r) sid binary buf with
                 | Panic => Panic
                 | Err => Ok (quiet r [])
                 | Ok (s, t) => Ok (quiet (with_s r s) t)
                 end
        end
  | OThreshold id v =>
      if negb (usable r id) then Ok (quiet r [])
      else
        match ChanModel.stream_by_channel (r_h r) id with
        | None => Panic
        | Some sid => do s <- set_threshold (r_s r) sid v ; Ok (quiet (with_s r s) [])
        end
  end.

(** lib.rs:1222-: no channels, SCTP not started (mod.rs:288-319) *)
Definition rtc0 (w : A) (now placeholder : Z) : rtc :=
  mkRtc ChanModel.init [] (mkSctp Uninited w false [] [] [] None placeholder false) now.

(** What an observer of the API sees, in order: calls, events, stream operations, and "idle" when a
    poll had nothing. *)
Inductive item := ICall (o : op) | IEv (u : uevent) | IAct (a : act) | IIdle.

Definition items (o : op) (x : sres) : list item :=
  ICall o :: map IAct (o_acts x) ++ map IEv (o_evs x) ++ (if o_idle x then [IIdle] else []).

Fixpoint run (r : rtc) (os : list op) : res (rtc * list item) :=
  match os with
  | [] => Ok (r, [])
  | o :: os' => do x <- step r o ; do (r', is) <- run (o_r x) os' ; Ok (r', items o x ++ is)
  end.

End Sctp.
Arguments ICall {A}. Arguments IEv {A}. Arguments IAct {A}. Arguments IIdle {A}.
Arguments ONew {A}. Arguments OConfirm {A}. Arguments OClose {A}. Arguments OPoll {A}. Arguments OWrite {A}. Arguments OThreshold {A}.

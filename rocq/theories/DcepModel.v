(** Model of the data channel establishment messages (RFC 8832).
    /repo/src/sctp/dcep.rs (whole file) and the conversions in /repo/src/sctp/mod.rs:1330-1380.
    Strings are byte lists; [utf8] is core::str::from_utf8's validity test (RtcpModel). *)
From Verif Require Import Base RtcpModel.

(** sctp_proto::ReliabilityType (external crate): Reliable = 0, Rexmit = 1, Timed = 2;
    From<u8> maps every other value to Reliable. *)
Inductive rtype := TReliable | TRexmit | TTimed.
Definition rtype_code (t : rtype) : Z := match t with TReliable => 0 | TRexmit => 1 | TTimed => 2 end.
Definition rtype_of (c : Z) : rtype := if c =? 1 then TRexmit else if c =? 2 then TTimed else TReliable.

(** dcep.rs:28-35 *)
Record dcep := mkDcep {
  d_unordered : bool; d_type : rtype; d_priority : Z; d_param : Z; d_label : list Z; d_proto : list Z
}.

(** sctp/mod.rs:216-230 *)
Inductive reliability := Reliable | MaxPacketLifetime (ms : Z) | MaxRetransmits (n : Z).

(** sctp/mod.rs:186-200 *)
Record config := mkConfig {
  c_label : list Z; c_ordered : bool; c_rel : reliability; c_negotiated : option Z; c_proto : list Z
}.

(** sctp/mod.rs:1344-1356 *)
Definition rel_wire (r : reliability) : rtype * Z :=
  match r with
  | Reliable => (TReliable, 0)
  | MaxPacketLifetime ms => (TTimed, ms)
  | MaxRetransmits n => (TRexmit, n)
  end.

(** sctp/mod.rs:1370-1380 ([p as u16]) *)
Definition rel_of_wire (t : rtype) (p : Z) : reliability :=
  match t with
  | TReliable => Reliable
  | TRexmit => MaxRetransmits (p mod 65536)
  | TTimed => MaxPacketLifetime (p mod 65536)
  end.

(** sctp/mod.rs:1330-1342 *)
Definition dcep_of_config (c : config) : dcep :=
  mkDcep (negb (c_ordered c)) (fst (rel_wire (c_rel c))) 0 (snd (rel_wire (c_rel c))) (c_label c) (c_proto c).

(** sctp/mod.rs:1358-1368 *)
Definition config_of_dcep (d : dcep) : config :=
  mkConfig (d_label d) (negb (d_unordered d)) (rel_of_wire (d_type d) (d_param d)) None (d_proto d).

(** dcep.rs:82-96; [room] is the length of the buffer, the result its first [n] bytes. *)
Definition open_write (room : Z) (d : dcep) : res (list Z) :=
  if room <? 12 then Panic
  else if room - 12 <? zlen (d_label d) then Panic
  else if room - 12 - zlen (d_label d) <? zlen (d_proto d) then Panic
  else Ok ([3; Z.lor (rtype_code (d_type d)) (if d_unordered d then 128 else 0)]
           ++ be16 (d_priority d) ++ be32 (d_param d)
           ++ be16 (zlen (d_label d) mod 65536) ++ be16 (zlen (d_proto d) mod 65536)
           ++ d_label d ++ d_proto d).

(** dcep.rs:37-79 *)
Definition open_read (buf : list Z) : res dcep :=
  if zlen buf <? 12 then Err
  else
    do b0 <- idx buf 0 ;
    if negb (b0 =? 3) then Err
    else
      do b1 <- idx buf 1 ; do b2 <- idx buf 2 ; do b3 <- idx buf 3 ;
      do b4 <- idx buf 4 ; do b5 <- idx buf 5 ; do b6 <- idx buf 6 ; do b7 <- idx buf 7 ;
      do b8 <- idx buf 8 ; do b9 <- idx buf 9 ; do b10 <- idx buf 10 ; do b11 <- idx buf 11 ;
      let len_label := rd16 b8 b9 in
      let len_proto := rd16 b10 b11 in
      if zlen buf <? 12 + len_label + len_proto then Err
      else
        do rest <- from buf 12 ;
        do label <- slice rest 0 len_label ;
        if negb (utf8 label) then Err
        else
          do rest2 <- from rest len_label ;
          do proto <- slice rest2 0 len_proto ;
          if negb (utf8 proto) then Err
          else Ok (mkDcep (0 <? Z.land b1 128) (rtype_of (Z.land b1 127)) (rd16 b2 b3)
                          (rd32 b4 b5 b6 b7) label proto).

(** dcep.rs:101-122 *)
Definition ack_read (buf : list Z) : res unit :=
  match buf with
  | [] => Err
  | b :: _ => if negb (b =? 2) then Err else Ok tt
  end.
Definition ack_write (room : Z) : res (list Z) := if room <? 1 then Panic else Ok [2].

(** sctp/mod.rs:858-861: the OPEN message a local in-band channel sends (buffer of 1500 bytes);
    sctp/mod.rs:1038-1050: what the receiver configures. *)
Definition send_open (c : config) : res (list Z) := open_write 1500 (dcep_of_config c).
Definition recv_open (buf : list Z) : res config := do d <- open_read buf ; Ok (config_of_dcep d).

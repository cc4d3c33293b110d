(** C32: what a packetizer owes, for any codec; and C37: what patching a VP8 descriptor changes. *)
From Verif Require Import Base BufRxSpec Vp8Model.

(** The payloads fit the MTU and carry something. *)
Definition fit (mtu : Z) (pkts : list (list Z)) : Prop := pkts <> [] /\ Forall (fun p => 0 < zlen p <= mtu) pkts.
(** The receiver finds the frame's borders: only the first payload is a head. *)
Definition one_head (head : list Z -> bool) (pkts : list (list Z)) : Prop :=
  exists p rest, pkts = p :: rest /\ head p = true /\ Forall (fun q => head q = false) rest.

(** The VP8 depacketizer in the shape [feed] expects. *)
Definition vp8_dep (s : vp8d) (p out : list Z) (x : option vp8x) : vp8d * option (list Z * option vp8x) :=
  match vp8_depacketize s p out x with
  | (s', Some (o, e)) => (s', Some (o, Some e))
  | (s', None) => (s', None)
  end.

(** What can be read from a VP8 payload through the descriptor: picture id, base index, key index,
    and the media bytes behind it. *)
Definition view (payload : list Z) : option (option Z * option Z * option Z * list Z) :=
  match desc_parse payload with
  | None => None
  | Some d => Some (match d_pid d with Some (v, _, _) => Some v | None => None end,
                    match d_tl0 d with Some (v, _) => Some v | None => None end,
                    match d_key d with Some (v, _) => Some (Z.land v 31) | None => None end,
                    skipn (Z.to_nat (payload_offset d)) payload)
  end.
(** Replace what was asked for. *)
Definition over {A} (new old : option A) : option A := match new with Some v => Some v | None => old end.

(** The width of the picture id on the wire: seven bits while it fits. *)
Definition pw (p : vp8p) : Z := if picture_id p <? 128 then 7 else 15.
(** The receiver's extended picture id is a 64-bit number. *)
Definition d_ok (s : vp8d) : Prop := match ext_pid s with Some e => 0 <= e < 2 ^ 64 | None => True end.
(** The plain depacketizer in the shape [feed] expects. *)
Definition plain_dep (d : unit) (p out : list Z) (x : unit) : unit * option (list Z * unit) :=
  match plain_depacketize out p with Some o => (d, Some (o, x)) | None => (d, None) end.
(** A requested value is one its integer type can hold. *)
Definition ovalid (hi : Z) (o : option Z) : Prop := match o with Some v => 0 <= v < hi | None => True end.
(** The requested value can be written: the field is there and wide enough. *)
Definition writable (hi : bool -> Z) (new : option Z) (field : option bool) : Prop :=
  match new with None => True | Some v => match field with None => False | Some wide => v < hi wide end end.
Definition can_patch (d : desc) (pid tl0 key : option Z) : Prop :=
  writable (fun wide => if wide then 32768 else 128) pid (match d_pid d with Some (_, _, w) => Some w | None => None end) /\
  writable (fun _ => 256) tl0 (match d_tl0 d with Some _ => Some true | None => None end) /\
  writable (fun _ => 32) key (match d_key d with Some _ => Some true | None => None end).

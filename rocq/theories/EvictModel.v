(** Model of src/streams/rtx_cache_buf.rs (EvictingBuffer) and src/streams/rtx_cache.rs (RtxCache).
    [Instant] and [Duration] are [Z] (any fixed unit); [already_happened()] is a parameter value. *)
From Verif Require Import Base.

(** rtx_cache_buf.rs:31-40 Entry *)
Record entry (T : Type) := mkEnt { position : Z; timestamp : Z; value : T }.
Arguments mkEnt {T}. Arguments position {T}. Arguments timestamp {T}. Arguments value {T}.

(** rtx_cache_buf.rs:15-29 *)
Record ebuf (T : Type) := mkEbuf {
  buf : list (option (entry T)); max_age : Z; max_size : Z;
  last_position : option Z; next_evict : option Z; last_timeout : Z }.
Arguments mkEbuf {T}. Arguments buf {T}. Arguments max_age {T}. Arguments max_size {T}.
Arguments last_position {T}. Arguments next_evict {T}. Arguments last_timeout {T}.

Section E.
Context {T : Type}.

(** rtx_cache_buf.rs:44-50, 54-63 new *)
Definition enew (initial_size max_age max_size already : Z) : ebuf T :=
  mkEbuf (rep None initial_size) max_age max_size None None already.

(** rtx_cache_buf.rs:65-67 index_for_position *)
Definition index_for (b : list (option (entry T))) (p : Z) : nat := Z.to_nat (p mod zlen b).

(** rtx_cache_buf.rs:70-72 is_inert *)
Definition is_inert (e : ebuf T) : bool := (zlen (buf e) =? 0) || (max_age e =? 0).

(** [self.buf[index]]; the index is always in bounds because it is reduced modulo the length. *)
Definition slot_at (b : list (option (entry T))) (p : Z) : option (entry T) :=
  match nth_error b (index_for b p) with Some x => x | None => None end.

(** rtx_cache_buf.rs:207-228 grow *)
Definition new_len (len max : Z) : Z := Z.max (Z.min max (len * 133 / 100)) (len + 1).
Definition reinsert (b : list (option (entry T))) (x : option (entry T)) : list (option (entry T)) :=
  match x with Some e => lset b (index_for b (position e)) (Some e) | None => b end.
Definition grow (b : list (option (entry T))) (max : Z) : list (option (entry T)) :=
  if max <=? zlen b then b
  else fold_left reinsert b (rep None (new_len (zlen b) max)).

(** rtx_cache_buf.rs:77-119 push *)
Definition epush (e : ebuf T) (p t : Z) (v : T) : ebuf T :=
  if is_inert e then e
  else if t <? last_timeout e then e
  else
    let ne := match next_evict e with Some x => x | None => p end in
    if p <? ne then e   (* next_evict was set already, else p = ne *)
    else
      let b := match slot_at (buf e) p with
               | Some en => if negb (position en =? p) then grow (buf e) (max_size e) else buf e
               | None => buf e
               end in
      mkEbuf (lset b (index_for b p) (Some (mkEnt p t v)))
             (max_age e) (max_size e) (Some p) (Some ne) (last_timeout e).

(** rtx_cache_buf.rs:123-149 get / get_mut *)
Definition eget (e : ebuf T) (p : Z) : option T :=
  if is_inert e then None
  else match slot_at (buf e) p with
       | Some en => if position en =? p then Some (value en) else None
       | None => None
       end.

(** rtx_cache_buf.rs:174-202, the loop of [evict]; [n] counts the positions left before the start
    index comes round again (len of them), where the loop breaks. *)
Fixpoint evict_loop (b : list (option (entry T))) (age now p : Z) (n : nat) :=
  match n with
  | O => (b, p)
  | S n' =>
      match slot_at b p with
      | None => evict_loop b age now (p + 1) n'
      | Some en =>
          if age <? Z.max 0 (now - timestamp en)
          then evict_loop (lset b (index_for b p) None) age now (p + 1) n'
          else (b, p)
      end
  end.

(** rtx_cache_buf.rs:137-149: storing through the reference [get_mut] returns *)
Definition eset (e : ebuf T) (p : Z) (v : T) : ebuf T :=
  if is_inert e then e
  else match slot_at (buf e) p with
       | Some en => if position en =? p
                    then mkEbuf (lset (buf e) (index_for (buf e) p) (Some (mkEnt p (timestamp en) v)))
                                (max_age e) (max_size e) (last_position e) (next_evict e) (last_timeout e)
                    else e
       | None => e
       end.

(** rtx_cache_buf.rs:151-205 maybe_evict, evict *)
Definition maybe_evict (e : ebuf T) (now : Z) : ebuf T :=
  if is_inert e then e
  else if now <? last_timeout e then e
  else match next_evict e with
       | None => mkEbuf (buf e) (max_age e) (max_size e) (last_position e) None now
       | Some s =>
           let (b, p) := evict_loop (buf e) (max_age e) now s (length (buf e)) in
           mkEbuf b (max_age e) (max_size e) (last_position e) (Some p) now
       end.

(** rtx_cache_buf.rs:230-237 contains *)
Definition contains (e : ebuf T) (p : Z) : bool :=
  if is_inert e then false
  else match slot_at (buf e) p with Some _ => true | None => false end.

(** rtx_cache_buf.rs:239-254 last_position, last *)
Definition elast_position (e : ebuf T) : option Z := if is_inert e then None else last_position e.
Definition elast (e : ebuf T) : option T :=
  if is_inert e then None
  else match last_position e with None => None | Some p => eget e p end.

(** rtx_cache_buf.rs:256-263 clear *)
Definition eclear (e : ebuf T) (already : Z) : ebuf T :=
  mkEbuf (rep None (zlen (buf e))) (max_age e) (max_size e) None None already.

Inductive eop := EPush (p t : Z) (v : T) | EEvict (now : Z) | EClear.
Definition estep (already : Z) (e : ebuf T) (o : eop) : ebuf T :=
  match o with
  | EPush p t v => epush e p t v
  | EEvict now => maybe_evict e now
  | EClear => eclear e already
  end.
Definition erun (already : Z) (e : ebuf T) (ops : list eop) : ebuf T := fold_left (estep already) ops e.
End E.
Arguments eop : clear implicits.

(** * src/streams/rtx_cache.rs *)
(** rtx_cache.rs:10-11; src/io/mod.rs:19 *)
Definition QUANT : Z := 25.
Definition SLOTS : Z := 80.   (* DATAGRAM_MAX_PACKET_SIZE (2000) / 25 *)

Section R.
Context {B : Type}.
(** The part of an RtpPacket the cache looks at: sequence number, payload length; [body] stands for
    everything else. *)
Record rpkt := mkPkt { pseq : Z; plen : Z; body : B }.

(** rtx_cache.rs:14-30; [None] is the SeqNo::MAX sentinel. *)
Record rtxcache := mkRtx { by_seq : ebuf rpkt; by_size : list (option Z) }.
Definition rtx_new (max_packet_count max_packet_age already : Z) : rtxcache :=
  mkRtx (enew 10 max_packet_age max_packet_count already) (rep None SLOTS).

(** rtx_cache.rs:32-39 cache_sent_packet ([nackable] is asserted by the caller's branch, send.rs:718-720) *)
Definition cache_sent (c : rtxcache) (pk : rpkt) (now : Z) : res rtxcache :=
  let q := plen pk / QUANT in
  if SLOTS <=? q then Panic
  else Ok (mkRtx (maybe_evict (epush (by_seq c) (pseq pk) now pk) now)
                 (lset (by_size c) (Z.to_nat q) (Some (pseq pk)))).

(** rtx_cache.rs:45-47 get_cached_packet_by_seq_no *)
Definition get_by_seq (c : rtxcache) (s : Z) : option rpkt := eget (by_seq c) s.

(** rtx_cache.rs:49-59 get_cached_packet_smaller_than *)
Definition get_smaller (c : rtxcache) (max : Z) : res rpkt :=
  let q := max / QUANT in
  do l <- upto (by_size c) q;
  match find (fun o => match o with Some s => contains (by_seq c) s | None => false end) (rev l) with
  | Some (Some s) => match get_by_seq c s with Some pk => Ok pk | None => Err end
  | _ => Err
  end.

(** rtx_cache.rs:70-73 clear *)
Definition rtx_clear (c : rtxcache) (already : Z) : rtxcache :=
  mkRtx (eclear (by_seq c) already) (rep None SLOTS).
(** rtx_cache.rs:41-43, 65-68 *)
Definition last_cached (c : rtxcache) : option Z := elast_position (by_seq c).
Definition last_packet_len (c : rtxcache) : option Z :=
  match elast (by_seq c) with Some pk => Some (plen pk) | None => None end.
End R.
Arguments rpkt : clear implicits. Arguments rtxcache : clear implicits.

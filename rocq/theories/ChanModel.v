(** Model of data channel / SCTP stream id bookkeeping.
    /repo/src/channel.rs:170-452 (ChannelHandler); callers in /repo/src/lib.rs:1736-1776, 1831, 2036,
    /repo/src/change/direct.rs:172-179, /repo/src/change/sdp.rs:225, 450, 690.
    The SCTP side is seen as: inited or not, client or server (is_client()). A ChannelConfig is only
    "present or not" plus its negotiated id; close_channel (channel.rs:400-411) changes nothing here. *)
From Verif Require Import Base.

(** channel.rs:180-196 *)
Record alloc := mkAlloc {
  a_id : Z; a_stream : option Z; a_neg : option Z;
  a_conf : bool  (* config.is_some() *)
}.

(** channel.rs:171-178 *)
Record handler := mkHandler { allocs : list alloc; next_id : Z; held : list Z }.

Definition init : handler := mkHandler [] 0 [].

Definition opt_is (o : option Z) (x : Z) : bool := match o with Some y => y =? x | None => false end.
Definition is_none {A} (o : option A) : bool := match o with None => true | Some _ => false end.
Definition mem (l : list Z) (x : Z) : bool := existsb (Z.eqb x) l.

(** channel.rs:199-232 (the assert at 209-213) and 275-280 *)
Definition new_channel (h : handler) (neg : option Z) : res (handler * Z) :=
  let id := next_id h in
  let exists_ := match neg with
    | Some s => existsb (fun a => opt_is (a_stream a) s || opt_is (a_neg a) s) (allocs h)
    | None => false
    end in
  if exists_ then Panic
  else Ok (mkHandler (allocs h ++ [mkAlloc id None neg false]) (id + 1) (held h), id).

(** first allocation with this id, changed by f *)
Fixpoint upd_id (l : list alloc) (id : Z) (f : alloc -> alloc) : list alloc :=
  match l with
  | [] => []
  | a :: l' => if a_id a =? id then f a :: l' else a :: upd_id l' id f
  end.

(** channel.rs:234-241 (expect) *)
Definition confirm (h : handler) (id : Z) : res handler :=
  if existsb (fun a => a_id a =? id) (allocs h)
  then Ok (mkHandler (upd_id (allocs h) id (fun a => mkAlloc (a_id a) (a_stream a) (a_neg a) true)) (next_id h) (held h))
  else Panic.

(** channel.rs:244-249 *)
Definition channel_by_stream (h : handler) (s : Z) : option Z :=
  match find (fun a => opt_is (a_stream a) s) (allocs h) with Some a => Some (a_id a) | None => None end.

(** channel.rs:252-257 *)
Definition stream_by_channel (h : handler) (id : Z) : option Z :=
  match find (fun a => a_id a =? id) (allocs h) with Some a => a_stream a | None => None end.

(** channel.rs:282-299 *)
Definition is_held (h : handler) (s : Z) : bool := mem (held h) s.
Definition need_allocation (h : handler) : bool :=
  existsb (fun a => is_none (a_stream a) &&
                    match a_neg a with None => true | Some w => negb (is_held h w) end) (allocs h).
Definition need_open (h : handler) : bool :=
  existsb (fun a => a_conf a && negb (is_none (a_stream a))) (allocs h).

(** channel.rs:342-349, the walk over this parity's ids ([fuel]: at most 32768 of them) *)
Fixpoint walk (fuel : nat) (taken : list Z) (p : Z) : Z :=
  match fuel with
  | O => p
  | S f => if mem taken p then (if 65535 <? p + 2 then p else walk f taken (p + 2)) else p
  end.

Definition streams (l : list alloc) : list Z :=
  flat_map (fun a => match a_stream a with Some s => [s] | None => [] end) l.

Definition set_stream (a : alloc) (s : Z) : alloc := mkAlloc (a_id a) (Some s) (a_neg a) (a_conf a).

(** channel.rs:319-363, one allocation after the other *)
Fixpoint alloc_loop (base : Z) (taken : list Z) (l : list alloc) : list alloc :=
  match l with
  | [] => []
  | a :: l' =>
      match a_stream a with
      | Some _ => a :: alloc_loop base taken l'
      | None =>
          match a_neg a with
          | Some want =>
              if mem taken want then a :: alloc_loop base taken l'
              else set_stream a want :: alloc_loop base (taken ++ [want]) l'
          | None =>
              let p := walk (Z.to_nat 32768) taken base in
              if mem taken p then a :: alloc_loop base taken l'
              else set_stream a p :: alloc_loop base (taken ++ [p]) l'
          end
      end
  end.

(** channel.rs:302-364 *)
Definition do_allocations (h : handler) (client : bool) : handler :=
  if negb (need_allocation h) then h
  else
    let base := if client then 0 else 1 in
    mkHandler (alloc_loop base (streams (allocs h) ++ held h) (allocs h)) (next_id h) (held h).

(** channel.rs:367-385: the streams opened (sctp.open_stream) and the new state *)
Definition open_one (a : alloc) : alloc :=
  match a_stream a with
  | Some _ => mkAlloc (a_id a) (a_stream a) (a_neg a) false
  | None => a
  end.
Definition opened (l : list alloc) : list (Z * Z) :=
  flat_map (fun a => match a_stream a with Some s => if a_conf a then [(a_id a, s)] else [] | None => [] end) l.

(** channel.rs:259-269 *)
Definition handle_timeout (h : handler) (inited client : bool) : handler * list (Z * Z) :=
  if negb inited then (h, [])
  else
    let h1 := do_allocations h client in
    (mkHandler (map open_one (allocs h1)) (next_id h1) (held h1), opened (allocs h1)).

(** channel.rs:387-393: Some(already_happened()) or None *)
Definition wants_timeout_now (h : handler) (inited : bool) : bool :=
  inited && (need_allocation h || need_open h).

(** channel.rs:395-411 *)
Definition ensure_channel_id_for (h : handler) (s : Z) : handler :=
  if existsb (fun a => opt_is (a_stream a) s) (allocs h) then h
  else mkHandler (allocs h ++ [mkAlloc (next_id h) (Some s) None false]) (next_id h + 1) (held h).

(** channel.rs:431-435 (position, remove) *)
Fixpoint remove_first (l : list Z) (x : Z) : list Z :=
  match l with [] => [] | y :: l' => if y =? x then l' else y :: remove_first l' x end.
Definition stream_reset_complete (h : handler) (s : Z) : handler :=
  mkHandler (allocs h) (next_id h) (remove_first (held h) s).

(** channel.rs:439-441 *)
Definition association_lost (h : handler) : handler := mkHandler (allocs h) (next_id h) [].

(** channel.rs:444-456 *)
Definition remove_channel (h : handler) (id : Z) (reset_pending : bool) : handler :=
  let held' := match reset_pending, stream_by_channel h id with
    | true, Some s => held h ++ [s]
    | _, _ => held h
    end in
  mkHandler (filter (fun a => negb (a_id a =? id)) (allocs h)) (next_id h) held'.

(** What happens to the handler; sids are u16. *)
Inductive event :=
| ENew (neg : option Z)
| EConfirm (id : Z)
| ETimeout (inited : bool)
| ERemote (s : Z)                            (* lib.rs:1738 an OPEN event from sctp *)
| EClosed (s : Z) (reset_pending : bool)     (* lib.rs:1746-1752 *)
| EResetComplete (s : Z)
| ELost.

Definition step (client : bool) (h : handler) (e : event) : res handler :=
  match e with
  | ENew neg => do (h', _) <- new_channel h neg ; Ok h'
  | EConfirm id => confirm h id
  | ETimeout inited => Ok (fst (handle_timeout h inited client))
  | ERemote s => Ok (ensure_channel_id_for h s)
  | EClosed s rp => match channel_by_stream h s with
                    | Some id => Ok (remove_channel h id rp)
                    | None => Ok h
                    end
  | EResetComplete s => Ok (stream_reset_complete h s)
  | ELost => Ok (association_lost h)
  end.

Fixpoint run (client : bool) (h : handler) (es : list event) : res handler :=
  match es with
  | [] => Ok h
  | e :: es' => do h' <- step client h e ; run client h' es'
  end.

(** Model of the decodability checks: src/packet/contiguity.rs, contiguity_vp8.rs, contiguity_vp9.rs,
    and of the picture identifiers they read (src/packet/vp8.rs:672-697, vp9.rs:570-575, 605-618). *)
From Verif Require Import Base SeqModel.

(** contiguity.rs:27-33 *)
Record cstate := mkC { last_pid : option Z; last_tl0 : option Z }.

(** contiguity.rs:37-103 next_frame: (can be emitted, contiguous) and the new state. *)
Definition next_frame (s : cstate) (pid tl0 layer : option Z) (seq_ok : bool) : cstate * (bool * bool) :=
  match pid with
  | None => (s, (true, seq_ok))
  | Some p =>
    match tl0 with
    | None => (s, (true, seq_ok))
    | Some t =>
      match last_tl0 s, last_pid s with
      | Some lt, Some lp =>
          if p <=? lp then (s, (false, true))
          else if match layer with Some 0 => true | _ => false end then
            (mkC (Some p) (Some t), (true, t =? (lt + 1) mod U64))
          else
            let emit := (t =? lt) && (p =? (lp + 1) mod U64) in
            (if emit then mkC (Some p) (last_tl0 s) else s, (emit, true))
      | _, _ => (mkC (Some p) (Some t), (true, true))
      end
    end
  end.

(** contiguity_vp8.rs:20-31: the identifiers of a VP8 frame are 64-bit, the layer always known. *)
Definition vp8_check (s : cstate) (pid tl0 : option Z) (layer : Z) (seq_ok : bool) : cstate * (bool * bool) :=
  next_frame s pid tl0 (Some layer) seq_ok.

(** contiguity_vp9.rs:21-51: identifiers as on the wire (u16 and u8); the state goes back through
    [try_into().ok()], which forgets a value that does not fit. *)
Definition fits (n : Z) (v : option Z) : option Z := match v with Some x => if x <? n then Some x else None | None => None end.
Definition vp9_check (s : cstate) (pid : Z) (tl0 tid : option Z) (seq_ok : bool) : cstate * (bool * bool) :=
  let '(s', r) := next_frame s (Some pid) tl0 tid seq_ok in
  (mkC (fits U16 (last_pid s')) (fits U8 (last_tl0 s')), r).

(** What a frame says about itself on the wire: the 15-bit picture id, the 8-bit index of its base
    picture and its temporal layer. *)
Record wire := mkW { w_pid : Z; w_tl0 : Z; w_tid : Z }.

(** A VP8 receiver: the extended identifiers (vp8.rs:680, 694-695) and the check. *)
Record vp8rx := mkV { ext_pid : option Z; ext_tl0 : option Z; vc : cstate }.
Definition vp8_start : vp8rx := mkV None None (mkC None None).
Definition vp8_frame (r : vp8rx) (w : wire) (seq_ok : bool) : vp8rx * (bool * bool) :=
  let p := extend_u15 (ext_pid r) (w_pid w) in
  let t := extend_u8 (ext_tl0 r) (w_tl0 w) in
  let '(c, d) := vp8_check (vc r) (Some p) (Some t) (w_tid w) seq_ok in
  (mkV (Some p) (Some t) c, d).

(** A VP9 receiver (vp9.rs:570-575: identifiers as read). *)
Definition vp9_frame (c : cstate) (w : wire) (seq_ok : bool) : cstate * (bool * bool) :=
  vp9_check c (w_pid w) (Some (w_tl0 w)) (Some (w_tid w)) seq_ok.

(** Any receiver over a history of frames: the decisions, oldest first. *)
Section Run.
Context {S A : Type}.
Variable step : S -> A -> bool -> S * (bool * bool).
Fixpoint decide (s : S) (fs : list (A * bool)) : list (bool * bool) :=
  match fs with
  | [] => []
  | (w, q) :: fs' => let '(s', d) := step s w q in d :: decide s' fs'
  end.
End Run.

(** The wire format of the Video Layers Allocation extension, from the picture in the source and
    http://www.webrtc.org/experiments/rtp-hdrext/video-layers-allocation00. *)
From Verif Require Import Base VlaModel.

(** An active layer has temporal layers. Bit i of a stream's mask: layer i is active. *)
Fixpoint bitmask (s : list spatial) : Z :=
  match s with [] => 0 | l :: s' => b2z (active l) + 2 * bitmask s' end.

(** Four-bit masks, two to a byte, zero-padded. *)
Fixpoint pack2 (l : list Z) : list Z :=
  match l with
  | a :: b :: r => a * 16 + b :: pack2 r
  | [a] => [a * 16]
  | [] => []
  end.
(** Two-bit numbers, four to a byte, zero-padded. *)
Fixpoint pack4 (l : list Z) : list Z :=
  match l with
  | a :: b :: c :: d :: r => a * 64 + b * 16 + c * 4 + d :: pack4 r
  | [a; b; c] => [a * 64 + b * 16 + c * 4]
  | [a; b] => [a * 64 + b * 16]
  | [a] => [a * 64]
  | [] => []
  end.
(** LEB128 of a number below 2^(7*fuel) *)
Fixpoint leb (fuel : nat) (v : Z) : list Z :=
  match fuel with
  | O => []
  | S f => if v <? 128 then [v] else v mod 128 + 128 :: leb f (v / 128)
  end.
Definition res_bytes (l : spatial) : list Z :=
  match sp_res l with Some (w, h, f) => be16 (w - 1) ++ be16 (h - 1) ++ [f] | None => [] end.

(** All streams have the same active layers, and some layer is active. *)
Definition uniform (ss : list (list spatial)) : bool :=
  forallb (fun s => bitmask s =? bitmask (hd [] ss)) ss && negb (bitmask (hd [] ss) =? 0).

Definition layers (v : vla) : list spatial := filter active (concat (v_streams v)).

Definition enc (v : vla) : list Z :=
  let ss := v_streams v in
  [v_cur v * 64 + (zlen ss - 1) * 16 + (if uniform ss then bitmask (hd [] ss) else 0)]
  ++ (if uniform ss then [] else pack2 (map bitmask ss))
  ++ pack4 (map (fun l => zlen (sp_tl l) - 1) (layers v))
  ++ flat_map (leb 9) (flat_map sp_tl (layers v))
  ++ flat_map res_bytes (layers v).

(** ** What the format can carry *)
Definition res_ok (r : option (Z * Z * Z)) : Prop :=
  match r with Some (w, h, f) => 1 <= w < 65536 /\ 1 <= h < 65536 /\ 0 <= f < 256 | None => True end.
Definition layer_ok (l : spatial) : Prop :=
  if active l
  then zlen (sp_tl l) <= 4 /\ Forall (fun r => 0 <= r < 2 ^ 63) (sp_tl l) /\ res_ok (sp_res l)
  else sp_res l = None.
(** at most four spatial layers, the last one listed is active *)
Definition stream_ok (s : list spatial) : Prop :=
  zlen s <= 4 /\ Forall layer_ok s /\ (s = [] \/ exists s' l, s = s' ++ [l] /\ active l = true).
(** resolutions are given for the first so many active layers *)
Fixpoint res_prefix (ls : list spatial) : Prop :=
  match ls with
  | [] => True
  | l :: ls' => match sp_res l with
                | None => Forall (fun x => sp_res x = None) ls'
                | Some _ => res_prefix ls'
                end
  end.
Definition vla_ok (v : vla) : Prop :=
  0 <= v_cur v < 4 /\ 1 <= zlen (v_streams v) <= 4 /\ Forall stream_ok (v_streams v) /\ res_prefix (layers v).

(** C32 for AV1: open bitstream units and the RTP payload of "RTP Payload Format For AV1" (section 4), written down independently of the
    parser. *)
From Verif Require Import Base BufRxSpec Vp8Model Vp8Spec Av1Model.

Definition b2z (b : bool) : Z := if b then 1 else 0.
(** LEB128: base 128 digits, lowest first, all but the last with the top bit. *)
Fixpoint leb128_ (fuel : nat) (v : Z) : list Z :=
  match fuel with O => [] | S fuel => if v <? 128 then [v] else (v mod 128 + 128) :: leb128_ fuel (v / 128) end.
Definition leb128 (v : Z) : list Z := leb128_ 10 v.

(** An open bitstream unit. *)
Record aobu := mkA { a_type : Z; a_ext : option Z; a_forbidden : bool; a_reserved : bool; a_payload : list Z }.
Definition aobu_ok (o : aobu) : Prop :=
  0 <= a_type o < 16 /\ match a_ext o with Some x => byte_ok x | None => True end /\ bytes_ok (a_payload o) /\ zlen (a_payload o) < 2 ^ 62.
(** In bytes, with or without its size field. *)
Definition enc_obu (sized : bool) (o : aobu) : list Z :=
  (b2z (a_forbidden o) * 128 + a_type o * 8 + (match a_ext o with Some _ => 4 | None => 0 end) + b2z sized * 2 + b2z (a_reserved o))
  :: (match a_ext o with Some x => [x] | None => [] end) ++ (if sized then leb128 (zlen (a_payload o)) else []) ++ a_payload o.
(** The units that belong into RTP: sequence header, frame header, tile group, metadata, frame, redundant frame header.
    (Temporal delimiters must, tile lists and padding should, reserved types may be left out.) *)
Definition sendable (o : aobu) : bool := existsb (Z.eqb (a_type o)) [1; 3; 4; 5; 6; 7].
(** A temporal unit in the low-overhead format; the last unit may omit its size. *)
Definition frame_of (os : list aobu) (last_sized : bool) : list Z :=
  match rev os with
  | [] => []
  | o :: rest => concat (map (enc_obu true) (rev rest)) ++ enc_obu last_sized o
  end.
(** What the receiver should deliver. *)
Definition delivered (os : list aobu) : list Z := concat (map (enc_obu true) (filter sendable os)).

(** An RTP payload: continuation flags, start of a coded sequence, element count (0: not given), the elements. *)
Record apkt := mkK { k_z : bool; k_y : bool; k_n : bool; k_w : Z; k_elems : list (list Z) }.
Definition pkt_ok (k : apkt) : Prop :=
  k_elems k <> [] /\ Forall (fun e => e <> [] /\ bytes_ok e /\ zlen e < 2 ^ 63) (k_elems k) /\
  (k_w k = 0 \/ (k_w k = zlen (k_elems k) /\ k_w k <= 3)) /\ (k_n k = true -> k_z k = false).
(** every element but the last has its length in front; the last one too when no count is given *)
Fixpoint enc_elems (all : bool) (es : list (list Z)) : list Z :=
  match es with
  | [] => []
  | [e] => (if all then leb128 (zlen e) else []) ++ e
  | e :: es => leb128 (zlen e) ++ e ++ enc_elems all es
  end.
Definition enc_pkt (k : apkt) : list Z :=
  (b2z (k_z k) * 128 + b2z (k_y k) * 64 + k_w k * 16 + b2z (k_n k) * 8) :: enc_elems (k_w k =? 0) (k_elems k).

(** Putting units together: [acc] is the unfinished one. *)
Definition joined (acc : option (list Z)) (es : list (list Z)) : list (list Z) :=
  match acc, es with Some p, e :: es => (p ++ e) :: es | _, _ => es end.
Fixpoint assemble (acc : option (list Z)) (ks : list apkt) : option (list (list Z) * option (list Z)) :=
  match ks with
  | [] => Some ([], acc)
  | k :: ks =>
      if Bool.eqb (k_z k) (match acc with Some _ => true | None => false end) then
        let es := joined acc (k_elems k) in
        let '(us, acc) := if k_y k then (removelast es, Some (last es [])) else (es, None) in
        match assemble acc ks with Some (vs, a) => Some (us ++ vs, a) | None => None end
      else None
  end.

(** The depacketizer in the shape [feed] expects. *)
Definition av1_dep (s : avd) (p out : list Z) (x : option bool) : avd * option (list Z * option bool) :=
  match av1_depacketize s p out x with
  | (s', Ok (o, e)) => (s', Some (o, Some e))
  | (s', _) => (s', None)
  end.

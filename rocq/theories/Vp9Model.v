(** Model of VP9: src/packet/vp9.rs.

    The reader (packet/mod.rs:180-280, always byte aligned here) is the list of bytes not yet read;
    the separately counted [payload_index] is kept as the code keeps it, because it, not the reader,
    decides where the media bytes start.  Every parsing step returns the depacketizer as changed so far
    beside its result, since the code keeps those changes when it returns an error.  Indexing out of
    range is [Panic].  Errors carry no payload. *)
From Verif Require Import Base Vp8Model.

(** * Packetizer *)
(** vp9.rs:16-25 *)
Inductive vp9mode := Flexible | NonFlexible.
(** vp9.rs:184-194.  [initialized] only draws the first picture id at random; here [picture_id] is
    the value after that. *)
Record vp9p := mkP9 { p9_pid : Z; p9_tl0 : Z; p9_mode : vp9mode }.

(** vp9.rs:127-153 detect_vp9_keyframe_bitstream *)
Definition vp9_keyframe_bitstream (payload : list Z) : bool :=
  match payload with
  | [] => false
  | b :: _ =>
      if negb (Z.land b 192 =? 128) then false
      else
        let '(show, ftype) :=
          if Z.land (Z.shiftr b 4) 1 =? 1 then (Z.land (Z.shiftr b 2) 1, Z.land (Z.shiftr b 1) 1)
          else (Z.land (Z.shiftr b 3) 1, Z.land (Z.shiftr b 2) 1) in
        if negb (show =? 0) then false else ftype =? 0
  end.
(** vp9.rs:155-168 detect_vp9_keyframe *)
Definition vp9_keyframe (payload : list Z) : bool :=
  match payload with [] => false | b :: _ => Z.land b 64 =? 0 end.

(** vp9.rs:296-329: the descriptor of one packet, non-flexible mode *)
Definition vp9_header_nf (pid tl0 : Z) (key first last : bool) : list Z :=
  let f := 160 in
  let f := if negb key then Z.lor f 64 else f in
  let f := if first then Z.lor f 8 else f in
  let f := if last then Z.lor f 4 else f in
  let f := if key && first then Z.lor f 2 else f in
  [f; Z.lor (Z.land (Z.shiftr pid 8) 255) 128; Z.land pid 255; 16; tl0] ++ (if key && first then [0] else []).
(** vp9.rs:387-400: the descriptor of one packet, flexible mode *)
Definition vp9_header_f (pid : Z) (first last : bool) : list Z :=
  let f := 144 in
  let f := if first then Z.lor f 8 else f in
  let f := if last then Z.lor f 4 else f in
  [f; Z.lor (Z.land (Z.shiftr pid 8) 255) 128; Z.land pid 255].
(** vp9.rs:257-347 packetize_non_flexible *)
Definition vp9_packetize_nf (p : vp9p) (mtu : Z) (payload : list Z) : vp9p * list (list Z) :=
  let key := vp9_keyframe_bitstream payload in
  let tl0 := (p9_tl0 p + 1) mod 256 in
  if Z.min (mtu - 8) (zlen payload) <=? 0 then (mkP9 (p9_pid p) tl0 (p9_mode p), [])
  else (mkP9 (Z.land (p9_pid p + 1) 32767) tl0 (p9_mode p),
        map (fun '(first, last, d) => vp9_header_nf (p9_pid p) tl0 key first last ++ d) (frags (mtu - 8) payload)).
(** vp9.rs:363-414 packetize_flexible *)
Definition vp9_packetize_f (p : vp9p) (mtu : Z) (payload : list Z) : vp9p * list (list Z) :=
  if Z.min (mtu - 3) (zlen payload) <=? 0 then (p, [])
  else (mkP9 (Z.land (p9_pid p + 1) 32767) (p9_tl0 p) (p9_mode p),
        map (fun '(first, last, d) => vp9_header_f (p9_pid p) first last ++ d) (frags (mtu - 3) payload)).
(** vp9.rs:215-239 packetize *)
Definition vp9_packetize (p : vp9p) (mtu : Z) (payload : list Z) : vp9p * list (list Z) :=
  if (zlen payload =? 0) || (mtu =? 0) then (p, [])
  else match p9_mode p with NonFlexible => vp9_packetize_nf p mtu payload | Flexible => vp9_packetize_f p mtu payload end.

(** * Depacketizer *)
(** vp9.rs:28-117 Vp9CodecExtra *)
Record vp9x := mkX9 {
  x9_scheme : list (option Z); x9_tid : option Z; x9_widths : list (option Z); x9_heights : list (option Z);
  x9_tl0 : option Z; x9_pid : Z; x9_key : bool }.
Definition vp9x0 : vp9x := mkX9 [None; None; None] None [None; None; None] [None; None; None] None 0 false.

(** vp9.rs:418-473 Vp9Depacketizer: the flags of the first byte, [z] and the bytes of the layer index *)
Record vp9fl := mkF9 { f_i : bool; f_p : bool; f_l : bool; f_f : bool; f_b : bool; f_e : bool; f_v : bool; f_z : bool }.
Record vp9d := mkD9 {
  d_fl : vp9fl; d_pid : Z;
  d_tid : Z; d_u : bool; d_sid : Z; d_d : bool;
  d_pdiff : list Z; d_tl0 : Z;
  d_ns : Z; d_y : bool; d_g : bool; d_ng : Z;
  d_width : list (option Z); d_height : list (option Z);
  d_pgtid : list Z; d_pgu : list bool; d_pgpdiff : list (list Z) }.
Definition vp9d0 : vp9d :=
  mkD9 (mkF9 false false false false false false false false) 0 0 false 0 false [0; 0; 0] 0 0 false false 0
       [None; None; None] [None; None; None] [] [] [].
Definition set_fl s x := mkD9 x (d_pid s) (d_tid s) (d_u s) (d_sid s) (d_d s) (d_pdiff s) (d_tl0 s) (d_ns s) (d_y s) (d_g s) (d_ng s) (d_width s) (d_height s) (d_pgtid s) (d_pgu s) (d_pgpdiff s).
Definition set_pid s x := mkD9 (d_fl s) x (d_tid s) (d_u s) (d_sid s) (d_d s) (d_pdiff s) (d_tl0 s) (d_ns s) (d_y s) (d_g s) (d_ng s) (d_width s) (d_height s) (d_pgtid s) (d_pgu s) (d_pgpdiff s).
Definition set_layer s t u i d := mkD9 (d_fl s) (d_pid s) t u i d (d_pdiff s) (d_tl0 s) (d_ns s) (d_y s) (d_g s) (d_ng s) (d_width s) (d_height s) (d_pgtid s) (d_pgu s) (d_pgpdiff s).
Definition set_pdiff s x := mkD9 (d_fl s) (d_pid s) (d_tid s) (d_u s) (d_sid s) (d_d s) x (d_tl0 s) (d_ns s) (d_y s) (d_g s) (d_ng s) (d_width s) (d_height s) (d_pgtid s) (d_pgu s) (d_pgpdiff s).
Definition set_tl0 s x := mkD9 (d_fl s) (d_pid s) (d_tid s) (d_u s) (d_sid s) (d_d s) (d_pdiff s) x (d_ns s) (d_y s) (d_g s) (d_ng s) (d_width s) (d_height s) (d_pgtid s) (d_pgu s) (d_pgpdiff s).
Definition set_ss s ns y g ng := mkD9 (d_fl s) (d_pid s) (d_tid s) (d_u s) (d_sid s) (d_d s) (d_pdiff s) (d_tl0 s) ns y g ng (d_width s) (d_height s) (d_pgtid s) (d_pgu s) (d_pgpdiff s).
Definition set_ng s x := mkD9 (d_fl s) (d_pid s) (d_tid s) (d_u s) (d_sid s) (d_d s) (d_pdiff s) (d_tl0 s) (d_ns s) (d_y s) (d_g s) x (d_width s) (d_height s) (d_pgtid s) (d_pgu s) (d_pgpdiff s).
Definition set_wh s w h := mkD9 (d_fl s) (d_pid s) (d_tid s) (d_u s) (d_sid s) (d_d s) (d_pdiff s) (d_tl0 s) (d_ns s) (d_y s) (d_g s) (d_ng s) w h (d_pgtid s) (d_pgu s) (d_pgpdiff s).
Definition set_pg s t u d := mkD9 (d_fl s) (d_pid s) (d_tid s) (d_u s) (d_sid s) (d_d s) (d_pdiff s) (d_tl0 s) (d_ns s) (d_y s) (d_g s) (d_ng s) (d_width s) (d_height s) t u d.

(** Assignment to an array or vector element; [None] is an index out of range. *)
Fixpoint upd {A} (l : list A) (i : nat) (f : A -> A) : option (list A) :=
  match l, i with
  | [], _ => None
  | x :: r, O => Some (f x :: r)
  | x :: r, S i => match upd r i f with Some r' => Some (x :: r') | None => None end
  end.

(** What a parsing step leaves: the depacketizer, and the unread bytes with [payload_index]. *)
Definition step9 : Type := vp9d * res (list Z * Z).

(** vp9.rs:592-616 parse_picture_id *)
Definition parse_picture_id (s : vp9d) (r : list Z) (ix : Z) : step9 :=
  match r with
  | [] => (s, Err)
  | b :: r =>
      if bit b 128 then
        match r with
        | [] => (s, Err)
        | x :: r => (set_pid s (Z.lor (Z.shiftl (Z.land b 127) 8) x), Ok (r, ix + 1 + 1))
        end
      else (set_pid s (Z.land b 127), Ok (r, ix + 1))
  end.
(** vp9.rs:638-660 parse_layer_info_common; 618-630, 668-688 parse_layer_info and the non-flexible part *)
Definition parse_layer_info (s : vp9d) (r : list Z) (ix : Z) : step9 :=
  match r with
  | [] => (s, Err)
  | b :: r =>
      let ix := ix + 1 in
      let s := set_layer s (Z.shiftr b 5) (bit b 16) (Z.land (Z.shiftr b 1) 7) (bit b 1) in
      if 3 <=? d_sid s then (s, Err)
      else if f_f (d_fl s) then (s, Ok (r, ix))
      else match r with [] => (s, Err) | t :: r => (set_tl0 s t, Ok (r, ix + 1)) end
  end.
(** vp9.rs:698-722 parse_ref_indices; the loop runs at most four times *)
Fixpoint parse_ref_indices (fuel : nat) (num : Z) (s : vp9d) (r : list Z) (ix : Z) : step9 :=
  match fuel with
  | O => (s, Panic)
  | S fuel =>
      if num =? 3 then (s, Err)
      else match r with
           | [] => (s, Err)
           | b :: r =>
               match upd (d_pdiff s) (Z.to_nat num) (fun _ => Z.shiftr b 1) with
               | None => (s, Panic)
               | Some pd => let s := set_pdiff s pd in
                            if bit b 1 then parse_ref_indices fuel (num + 1) s r (ix + 1) else (s, Ok (r, ix + 1))
               end
           end
  end.
(** vp9.rs:766-769: the resolutions *)
Fixpoint parse_sizes (n : nat) (i : nat) (s : vp9d) (r : list Z) : vp9d * res (list Z) :=
  match n with
  | O => (s, Ok r)
  | S n =>
      match r with
      | w1 :: w2 :: r =>
          match upd (d_width s) i (fun _ => Some (w1 * 256 + w2)) with
          | None => (s, Panic)
          | Some w =>
              let s := set_wh s w (d_height s) in
              match r with
              | h1 :: h2 :: r =>
                  match upd (d_height s) i (fun _ => Some (h1 * 256 + h2)) with
                  | None => (s, Panic)
                  | Some h => parse_sizes n (S i) (set_wh s (d_width s) h) r
                  end
              | _ => (s, Err)
              end
          end
      | _ => (s, Err)
      end
  end.
(** vp9.rs:800-806: the P_DIFFs of one picture of a group *)
Fixpoint parse_pdiffs (n : nat) (i : nat) (s : vp9d) (r : list Z) (ix : Z) : step9 :=
  match n with
  | O => (s, Ok (r, ix))
  | S n =>
      match r with
      | [] => (s, Err)
      | b :: r =>
          match upd (d_pgpdiff s) i (fun l => l ++ [b]) with
          | None => (s, Panic)
          | Some pd => parse_pdiffs n i (set_pg s (d_pgtid s) (d_pgu s) pd) r (ix + 1)
          end
      end
  end.
(** vp9.rs:783-806: the pictures of a group; the vectors grow from what earlier packets left.
    [remaining_bits() < r] compares bits with bytes. *)
Fixpoint parse_group (n : nat) (i : nat) (s : vp9d) (r : list Z) (ix : Z) : step9 :=
  match n with
  | O => (s, Ok (r, ix))
  | S n =>
      match r with
      | [] => (s, Err)
      | b :: r =>
          let ix := ix + 1 in
          let s := set_pg s (d_pgtid s ++ [Z.shiftr b 5]) (d_pgu s ++ [bit b 16]) (d_pgpdiff s) in
          let k := Z.land (Z.shiftr b 2) 3 in
          if zlen r * 8 <? k then (s, Err)
          else let s := set_pg s (d_pgtid s) (d_pgu s) (d_pgpdiff s ++ [[]]) in
               match parse_pdiffs (Z.to_nat k) i s r ix with
               | (s, Ok (r, ix)) => parse_group n (S i) s r ix
               | (s, e) => (s, e)
               end
      end
  end.
(** vp9.rs:742-809 parse_ssdata *)
Definition parse_ssdata (s : vp9d) (r : list Z) (ix : Z) : step9 :=
  match r with
  | [] => (s, Err)
  | b :: r =>
      let ix := ix + 1 in
      let s := set_ss s (Z.shiftr b 5) (bit b 16) (negb (Z.land (Z.shiftr b 1) 7 =? 0)) 0 in
      let ns := d_ns s + 1 in
      if 3 <? ns then (s, Err)
      else
        match (if d_y s then
                 if zlen r * 8 <? 4 * ns then (s, Err)
                 else match parse_sizes (Z.to_nat ns) 0 s r with
                      | (s, Ok r) => (s, Ok (r, ix + 4 * ns))
                      | (s, Err) => (s, Err)
                      | (s, Panic) => (s, Panic)
                      end
               else (s, Ok (r, ix))) with
        | (s, Ok (r, ix)) =>
            match (if d_g s then match r with [] => (s, Err) | n :: r => (set_ng s n, Ok (r, ix + 1)) end else (s, Ok (r, ix))) with
            | (s, Ok (r, ix)) => parse_group (Z.to_nat (d_ng s)) 0 s r ix
            | (s, e) => (s, e)
            end
        | (s, e) => (s, e)
        end
  end.

(** vp9.rs:540-583 update_extra; [extra] of another codec is [None].  [packet_len - payload_index] underflows when the index is past the end. *)
Definition update_extra (s : vp9d) (extra : option vp9x) (out_len packet_len ix : Z) : res vp9x :=
  let e := match extra with Some e => e | None => vp9x0 end in
  do e <- (if f_l (d_fl s) then
             if out_len + packet_len <? ix then Panic
             else match nth_error (x9_scheme e) (Z.to_nat (d_sid s)) with
                  | None => Panic
                  | Some o =>
                      if match o with Some stop => negb (stop =? out_len) | None => false end then Err
                      else match upd (x9_scheme e) (Z.to_nat (d_sid s)) (fun _ => Some (out_len + packet_len - ix)) with
                           | None => Panic
                           | Some sc =>
                               Ok (mkX9 sc (Some (d_tid s)) (x9_widths e) (x9_heights e)
                                        (if f_f (d_fl s) then x9_tl0 e else Some (d_tl0 s)) (x9_pid e) (x9_key e))
                           end
                  end
           else Ok e) ;
  Ok (mkX9 (x9_scheme e) (x9_tid e) (d_width s) (d_height s) (x9_tl0 e) (d_pid s)
           (x9_key e || (negb (f_p (d_fl s)) && ((d_sid s =? 0) || negb (f_l (d_fl s))) && f_b (d_fl s)))).

(** Run [k] on the result of a step, keeping the state on an error. *)
Definition then9 {A} (x : step9) (k : vp9d -> list Z -> Z -> vp9d * res A) : vp9d * res A :=
  match x with (s, Ok (r, ix)) => k s r ix | (s, Err) => (s, Err) | (s, Panic) => (s, Panic) end.
Definition flags_of (b : Z) : vp9fl :=
  mkF9 (bit b 128) (bit b 64) (bit b 32) (bit b 16) (bit b 8) (bit b 4) (bit b 2) (bit b 1).
(** vp9.rs:482-523 depacketize *)
Definition vp9_depacketize (s : vp9d) (packet out : list Z) (extra : option vp9x) : vp9d * res (list Z * vp9x) :=
  match packet with
  | [] => (s, Err)
  | b :: r =>
      let fl := flags_of b in
      then9 (if f_i fl then parse_picture_id (set_fl s fl) r 1 else (set_fl s fl, Ok (r, 1))) (fun s r ix =>
      then9 (if f_l fl then parse_layer_info s r ix else (s, Ok (r, ix))) (fun s r ix =>
      then9 (if f_f fl && f_p fl then parse_ref_indices 4 0 s r ix else (s, Ok (r, ix))) (fun s r ix =>
      then9 (if f_v fl then parse_ssdata s r ix else (s, Ok (r, ix))) (fun s r ix =>
      (s, do x <- update_extra s extra (zlen out) (zlen packet) ix ;
          if zlen packet <? ix then Panic else Ok (out ++ skipn (Z.to_nat ix) packet, x))))))
  end.
(** vp9.rs:525-532 is_partition_head *)
Definition vp9_head (payload : list Z) : bool := match payload with [] => false | b :: _ => bit b 8 end.

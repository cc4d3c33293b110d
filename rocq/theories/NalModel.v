(** Model of src/packet/h265.rs and src/packet/h266.rs.  The two files have the same shape; what differs is
    chosen by the codec. *)
From Verif Require Import Base Vp8Model H264Model.

Inductive nal_codec := Hevc | Vvc.

(** h265.rs:622-624, h266.rs:69-71 and u16::from_be_bytes: the header word of two bytes *)
Definition hword (b0 b1 : Z) : Z := Z.lor (Z.shiftl b0 8) b1.
(** h265.rs:627-629, h266.rs:81-83 *)
Definition hf (h : Z) : bool := negb (Z.land (Z.shiftr h 15) 1 =? 0).
(** h265.rs:632-636, h266.rs:96-98 *)
Definition htype (c : nal_codec) (h : Z) : Z :=
  match c with Hevc => Z.shiftr (Z.land h 32256) 9 | Vvc => Z.land (Z.shiftr h 3) 31 end.
(** h266.rs:91-93, 101-103 *)
Definition hlayer (h : Z) : Z := Z.land (Z.shiftr h 8) 63.
Definition htid (h : Z) : Z := Z.land h 7.
(** the first two bytes of a unit; read only where there are two *)
Definition hd2 (n : list Z) : Z := match n with b0 :: b1 :: _ => hword b0 b1 | _ => 0 end.

(** h265.rs:20-50, h266.rs:30-43 *)
Definition t_vps (c : nal_codec) : Z := match c with Hevc => 32 | Vvc => 14 end.
Definition t_sps (c : nal_codec) : Z := match c with Hevc => 33 | Vvc => 15 end.
Definition t_pps (c : nal_codec) : Z := match c with Hevc => 34 | Vvc => 16 end.
Definition t_ap (c : nal_codec) : Z := match c with Hevc => 48 | Vvc => 28 end.
Definition t_fu (c : nal_codec) : Z := match c with Hevc => 49 | Vvc => 29 end.
(** h265.rs:367 (AUD 35, filler 38); h266.rs:338-352 (AUD 20, filler 25, and the reserved 28 and 29) *)
Definition skipped (c : nal_codec) (t : Z) : bool :=
  match c with Hevc => (t =? 35) || (t =? 38) | Vvc => (t =? 20) || (t =? 25) || (t =? 28) || (t =? 29) end.
(** h265.rs:688-699 (also 108-116), h266.rs:108-113 (also 201, 645-648) *)
Definition irap (c : nal_codec) (t : Z) : bool :=
  match c with Hevc => (16 <=? t) && (t <=? 21) | Vvc => (7 <=? t) && (t <=? 9) end.
Definition max_packet : Z := 1200.

(** h265.rs:487-489, 1500-1504: the header with another type; h266.rs:447-448, 642-644 *)
Definition retype (c : nal_codec) (h t : Z) : list Z :=
  match c with
  | Hevc => be16 (Z.lor (Z.land h 33279) (Z.shiftl t 9))
  | Vvc => [Z.shiftr h 8; Z.lor (Z.shiftl t 3 mod 256) (Z.land h 7)]
  end.
(** h265.rs:1045-1054, h266.rs:129-141 (P is never set by the packetizer) *)
Definition fu_mask (c : nal_codec) : Z := match c with Hevc => 63 | Vvc => 31 end.
Definition fu_header (c : nal_codec) (s e : bool) (t : Z) : Z :=
  Z.lor (Z.lor (Z.land t (fu_mask c)) (if s then 128 else 0)) (if e then 64 else 0).

(** h265.rs:157-171, h266.rs:209-218; the buffer is only scratch space *)
Record nalp := mkNp { n_vps : option (list Z); n_sps : option (list Z); n_pps : option (list Z); n_donl : option Z }.
(** h265.rs:203-207, h266.rs:244-248 *)
Definition donl_add (d : option Z) (n : Z) : option Z := option_map (fun v => (v + n) mod U16) d.
Definition overhead (d : option Z) : Z := match d with Some _ => 2 | None => 0 end.
(** h265.rs:239-241: DONL in front, when enabled *)
Definition donl_bytes (d : option Z) : list Z := match d with Some v => be16 v | None => [] end.
(** h265.rs:460-475, h266.rs:424-435: the single unit packet *)
Definition single (d : option Z) (n : list Z) : list Z := firstn 2 n ++ donl_bytes d ++ skipn 2 n.
(** h265.rs:460, 429 do not count DONL; h266.rs:398, 423 do *)
Definition single_size (c : nal_codec) (d : option Z) (n : list Z) : Z :=
  zlen n + match c with Hevc => 0 | Vvc => overhead d end.

(** h265.rs:245-258: units with their sizes, a DOND byte before all but the first when DONL is on, and the
    size check after each; [None] when it does not fit. *)
Fixpoint ap_units (d : option Z) (first : bool) (buf : list Z) (ns : list (list Z)) (max : Z) : option (list Z) :=
  match ns with
  | [] => Some buf
  | n :: r =>
      let buf := buf ++ (if (match d with Some _ => true | None => false end) && negb first then [0] else []) ++ be16 (zlen n mod U16) ++ n in
      if max <? zlen buf then None else ap_units d false buf r max
  end.
(** h265.rs:220-261 *)
Definition ap265 (template : list Z) (ns : list (list Z)) (d : option Z) (max : Z) : option (list Z) :=
  ap_units d true (retype Hevc (hd2 template) 48 ++ donl_bytes d) ns max.
(** h266.rs:253-307 *)
Definition ap266 (ns : list (list Z)) (d : option Z) (mtu : Z) : option (list Z) :=
  let f := existsb (fun n => hf (hd2 n)) ns in
  let layer := fold_left (fun a n => Z.min a (hlayer (hd2 n))) ns 63 in
  let tid := Z.max (fold_left (fun a n => Z.min a (htid (hd2 n))) ns 7) 1 in
  if existsb (fun n => 65535 <? zlen n) ns then None
  else if mtu <? 2 + overhead d + fold_left (fun a n => a + (2 + zlen n)) ns 0 then None
  else Some ([Z.lor (Z.land layer 63) (if f then 128 else 0); Z.lor (Z.shiftl (Z.land 28 31) 3) (Z.land tid 7)]
             ++ donl_bytes d ++ concat (map (fun n => be16 (zlen n) ++ n) ns)).
Definition ap (c : nal_codec) (template : list Z) (ns : list (list Z)) (d : option Z) (mtu : Z) : option (list Z) :=
  match c with Hevc => ap265 template ns d mtu | Vvc => ap266 ns d mtu end.

(** h265.rs:428-448, h266.rs:396-412: single packets when the aggregate does not fit; a set too large for
    the MTU is dropped *)
Fixpoint fallback (c : nal_codec) (d : option Z) (ns : list (list Z)) (mtu : Z) : option Z * list (list Z) :=
  match ns with
  | [] => (d, [])
  | n :: r => if single_size c d n <=? mtu
              then let (d', ps) := fallback c (donl_add d 1) r mtu in (d', single d n :: ps)
              else fallback c d r mtu
  end.
Definition oset (o : option (list Z)) : list (list Z) := match o with Some n => [n] | None => [] end.
(** h265.rs:391-456, h266.rs:373-418 *)
Definition flush_sets (c : nal_codec) (st : nalp) (nalu : list Z) (mtu : Z) : nalp * list (list Z) :=
  match n_sps st, n_pps st with
  | Some s, Some p =>
      let ns := oset (n_vps st) ++ [s; p] in
      match ap c nalu ns (n_donl st) mtu with
      | Some pkt => (mkNp None None None (donl_add (n_donl st) (zlen ns)), [pkt])
      | None => let (d, ps) := fallback c (n_donl st) ns mtu in (mkNp None None None d, ps)
      end
  | _, _ => (st, [])
  end.

(** h265.rs:509-533, h266.rs:462-487; [data] is payload[offset..], [first] says offset = 0, [fuel] the
    length of the payload (every round takes at least one byte) *)
Fixpoint fu_loop (fuel : nat) (c : nal_codec) (ind : list Z) (t : Z) (dn : list Z) (first : bool) (first_max max_fragment : Z) (data : list Z) : list (list Z) :=
  match fuel, data with
  | S fuel, _ :: _ =>
      let take := Z.min (zlen data) (if first then first_max else max_fragment) in
      (ind ++ [fu_header c first (take =? zlen data) t] ++ (if first then dn else []) ++ firstn (Z.to_nat take) data)
      :: fu_loop fuel c ind t dn false first_max max_fragment (skipn (Z.to_nat take) data)
  | _, _ => []
  end.
(** h265.rs:458-537, h266.rs:420-491 *)
Definition emit_unit (c : nal_codec) (st : nalp) (nalu : list Z) (mtu : Z) : nalp * list (list Z) :=
  let d := n_donl st in
  let st' := mkNp (n_vps st) (n_sps st) (n_pps st) (donl_add d 1) in
  if single_size c d nalu <=? mtu then (st', [single d nalu])
  else if (zlen nalu <=? 2) || (Z.min mtu max_packet <=? 3 + overhead d) then (st, [])
  else (st', fu_loop (length nalu) c (retype c (hd2 nalu) (t_fu c)) (htype c (hd2 nalu)) (donl_bytes d) true
                     (Z.min mtu max_packet - 3 - overhead d) (Z.min mtu max_packet - 3) (skipn 2 nalu)).
(** h265.rs:357-537, h266.rs:329-491 *)
Definition emit_nalu (c : nal_codec) (st : nalp) (nalu : list Z) (mtu : Z) : nalp * list (list Z) :=
  if (mtu =? 0) || (zlen nalu <? 2) then (st, [])
  else let t := htype c (hd2 nalu) in
    if skipped c t then (st, [])
    else if t =? t_vps c then (mkNp (Some nalu) (n_sps st) (n_pps st) (n_donl st), [])
    else if t =? t_sps c then (mkNp (n_vps st) (Some nalu) (n_pps st) (n_donl st), [])
    else if t =? t_pps c then (mkNp (n_vps st) (n_sps st) (Some nalu) (n_donl st), [])
    else let (st1, ps) := flush_sets c st nalu mtu in
         let (st2, qs) := emit_unit c st1 nalu mtu in (st2, ps ++ qs).

(** h266.rs:311-325 over payload[i..]; beyond the end nothing is found *)
Fixpoint scan266 (i : Z) (l : list Z) : option (Z * Z) :=
  match l with
  | [] => None
  | a :: r => match r with
              | b :: c :: r' =>
                  if (a =? 0) && (b =? 0) && (c =? 1) then Some (i, 3)
                  else if (a =? 0) && (b =? 0) && (c =? 0) && match r' with d :: _ => d =? 1 | [] => false end then Some (i, 4)
                  else scan266 (i + 1) r
              | _ => None
              end
  end.
(** h265.rs:334-349 is the loop of H.264; h266.rs:311-325 *)
Definition next_code (c : nal_codec) (payload : list Z) (start : Z) : res (option (Z * Z)) :=
  match c with
  | Hevc => do l <- from payload start; Ok (scan start l 0 0)
  | Vvc => Ok (scan266 start (skipn (Z.to_nat start) payload))
  end.
(** h265.rs:586-598, h266.rs:536-547; [fuel] is the payload length: every round moves past a start code *)
Fixpoint walk (fuel : nat) (c : nal_codec) (st : nalp) (payload : list Z) (mtu : Z) (ind : option (Z * Z)) : res (nalp * list (list Z)) :=
  match fuel, ind with
  | S fuel, Some (s, n) =>
      let nalu_start := s + n in
      do ind' <- next_code c payload nalu_start;
      do nalu <- match ind' with Some (s', _) => slice payload nalu_start s' | None => from payload nalu_start end;
      let '(st', ps) := emit_nalu c st nalu mtu in
      do r <- walk fuel c st' payload mtu ind';
      Ok (fst r, ps ++ snd r)
  | _, _ => Ok (st, [])
  end.
(** h265.rs:541-601, h266.rs:495-550 *)
Definition nal_packetize (c : nal_codec) (st : nalp) (mtu : Z) (payload : list Z) : res (nalp * list (list Z)) :=
  if (zlen payload =? 0) || (mtu =? 0) then Ok (st, [])
  else if (mtu <=? max_packet) && (mtu <? 4) then Ok (st, [])
  else let mtu := if max_packet <? mtu then max_packet else mtu in
       do ind <- next_code c payload 0;
       match ind with
       | None => Ok (emit_nalu c st payload mtu)
       | Some _ => walk (S (length payload)) c st payload mtu ind
       end.

(** h265.rs:1402-1406 (without [payload], see [ap_struct]), h266.rs:560-565 *)
Record nald := mkNd { might_need_donl : bool; fu_buffer : option (list Z) }.
(** h265.rs:1461-1466 and three more, h266.rs:600-607; the codec extra is the key flag, [None] when unset *)
Definition mark_irap (c : nal_codec) (h : Z) (x : option bool) : option bool :=
  Some (match x with Some k => irap c (htype c h) || k | None => irap c (htype c h) end).
(** h265.rs:1534-1584: [r] is packet[offset..]; counts the units *)
Fixpoint ap_loop265 (fuel : nat) (dn first : bool) (r out : list Z) (x : option bool) (count : Z) : list Z * option bool * Z :=
  match fuel, r with
  | S fuel, _ :: _ =>
      let k := if dn then if first then 2 else 1 else 0 in
      if zlen r <? k then (out, x, count)
      else match skipn (Z.to_nat k) r with
           | hi :: lo :: r =>
               let n := Z.lor (Z.shiftl hi 8) lo in
               if zlen r <? n then (out, x, count)
               else let u := firstn (Z.to_nat n) r in
                    ap_loop265 fuel dn false (skipn (Z.to_nat n) r) (out ++ start_code ++ u)
                               (if 2 <=? zlen u then mark_irap Hevc (hd2 u) x else x) (count + 1)
           | _ => (out, x, count)
           end
  | _, _ => (out, x, count)
  end.
(** h265.rs:956-984 *)
Fixpoint ap_others (fuel : nat) (dn : bool) (r : list Z) : list (list Z) :=
  match fuel with
  | S fuel =>
      if dn && (zlen r =? 0) then []
      else match (if dn then skipn 1 r else r) with
           | hi :: lo :: r => let n := Z.lor (Z.shiftl hi 8) lo in
                              if zlen r <? n then [] else firstn (Z.to_nat n) r :: ap_others fuel dn (skipn (Z.to_nat n) r)
           | _ => []
           end
  | O => []
  end.
(** h265.rs:914-995, 1008-1017: the units of the structure behind payload(), [None] an error.  The header
    was checked by the caller. *)
Definition ap_struct (dn : bool) (packet : list Z) : option (list (list Z)) :=
  let r := skipn 2 packet in
  if dn && (zlen r <? 2) then None
  else match (if dn then skipn 2 r else r) with
       | hi :: lo :: r =>
           let n := Z.lor (Z.shiftl hi 8) lo in
           if zlen r <? n then None
           else match ap_others (length r) dn (skipn (Z.to_nat n) r) with
                | [] => None
                | us => Some (firstn (Z.to_nat n) r :: us)
                end
       | _ => None
       end.
(** h266.rs:675-705; [None] is an error (what was appended is truncated, and the caller discards it) *)
Fixpoint ap_loop266 (fuel : nat) (r out : list Z) (x : option bool) (count : Z) : option (list Z * option bool * Z) :=
  match fuel, r with
  | S fuel, _ :: _ =>
      match r with
      | hi :: lo :: r =>
          let n := Z.lor (Z.shiftl hi 8) lo in
          if (zlen r <? n) || (n <? 2) then None
          else let u := firstn (Z.to_nat n) r in
               let t := htype Vvc (hd2 u) in
               if (t =? 28) || (t =? 29) then None
               else ap_loop266 fuel (skipn (Z.to_nat n) r) (out ++ start_code ++ u) (mark_irap Vvc (hd2 u) x) (count + 1)
      | _ => None
      end
  | _, _ => Some (out, x, count)
  end.
(** h265.rs:1525-1597, h266.rs:658-711 *)
Definition dep_ap (c : nal_codec) (dn : bool) (packet out : list Z) (x : option bool) : option (list Z * option bool) :=
  match c with
  | Hevc => let '(o, y, n) := ap_loop265 (length packet) dn true (skipn 2 packet) out x 0 in
            if n <? 2 then None else match ap_struct dn packet with Some _ => Some (o, y) | None => None end
  | Vvc => if dn && (zlen packet <? 4) then None
           else match ap_loop266 (length packet) (skipn (if dn then 4 else 2) packet) out x 0 with
                | Some (o, y, n) => if n <? 2 then None else Some (o, y)
                | None => None
                end
  end.
(** h265.rs:1470-1524 with 1114-1146, h266.rs:609-657; the size checks of the two differ by one *)
Definition dep_fu (c : nal_codec) (s : nald) (packet out : list Z) (x : option bool) : nald * option (list Z * option bool) :=
  match skipn 2 packet with
  | f :: d =>
      let start := bit f 128 in
      let tight := match c with Hevc => 1 | Vvc => 0 end in
      if zlen d <? tight then (s, None)
      else if start && might_need_donl s && (zlen d <? 2 + tight) then (s, None)
      else
        let d := if start && might_need_donl s then skipn 2 d else d in
        let buf := if start then Some [] else fu_buffer s in
        let buf := option_map (fun b => b ++ d) buf in
        (mkNd (might_need_donl s) buf,
         if bit f 64 then
           match buf with
           | Some b => let h := retype c (hd2 packet) (Z.land f (fu_mask c)) in
                       Some (out ++ start_code ++ h ++ b, mark_irap c (hd2 h) x)
           | None => Some (out, x)
           end
         else Some (out, x))
  | [] => (s, None)
  end.
(** h265.rs:1599-1619 with 743-776, h266.rs:713-728; the size checks of the two agree *)
Definition dep_single (c : nal_codec) (dn : bool) (packet out : list Z) (x : option bool) : option (list Z * option bool) :=
  if dn && (zlen packet <? 5) then None
  else Some (out ++ start_code ++ firstn 2 packet ++ skipn (if dn then 4 else 2) packet, mark_irap c (hd2 packet) x).
(** h265.rs:1450-1469 with 1279-1314: only the payload behind the extension is written, without the header
    of the unit it belongs to *)
Definition dep_paci (packet out : list Z) (x : option bool) : option (list Z * option bool) :=
  match skipn 2 packet with
  | b2 :: b3 :: r =>
      if zlen r <=? 0 then None
      else let phs := Z.shiftr (Z.land (hword b2 b3) 496) 4 in
           if zlen r <? phs + 1 then None
           else let p := skipn (Z.to_nat phs) r in
                Some (out ++ start_code ++ p, if 2 <=? zlen p then mark_irap Hevc (hd2 p) x else x)
  | _ => None
  end.
(** h265.rs:1435-1623, h266.rs:580-730 *)
Definition nal_depacketize (c : nal_codec) (s : nald) (packet out : list Z) (x : option bool) : nald * option (list Z * option bool) :=
  if zlen packet <=? 2 then (s, None)
  else let h := hd2 packet in
    if hf h then (s, None)
    else if match c with Hevc => htype c h =? 50 | Vvc => false end then (s, dep_paci packet out x)
    else if htype c h =? t_fu c then dep_fu c s packet out x
    else if htype c h =? t_ap c then (s, dep_ap c (might_need_donl s) packet out x)
    else (s, dep_single c (might_need_donl s) packet out x).
(** h265.rs:1626-1666, h266.rs:732-749 *)
Definition nal_head (c : nal_codec) (packet : list Z) : bool :=
  if zlen packet <? 2 then false
  else if hf (hd2 packet) then true
  else if htype c (hd2 packet) =? t_fu c then match skipn 2 packet with f :: _ => bit f 128 | [] => false end
  else true.
(** h265.rs:1668-1686, h266.rs:751-763 *)
Definition nal_tail (c : nal_codec) (marker : bool) (packet : list Z) : bool :=
  if zlen packet <? 2 then false
  else if htype c (hd2 packet) =? t_fu c then match skipn 2 packet with f :: _ => bit f 64 | [] => false end
  else marker.
(** h265.rs:79-93, h266.rs:180-193 *)
Fixpoint ap_key (fuel : nat) (c : nal_codec) (r : list Z) : bool :=
  match fuel, r with
  | S fuel, hi :: lo :: r =>
      let n := Z.lor (Z.shiftl hi 8) lo in
      if (zlen r <? n) || (n <? 2) then false
      else irap c (htype c (hd2 r)) || ap_key fuel c (skipn (Z.to_nat n) r)
  | _, _ => false
  end.
(** h265.rs:65-121, h266.rs:171-205 *)
Definition nal_detect_key (c : nal_codec) (payload : list Z) : bool :=
  if zlen payload <? 2 then false
  else let t := htype c (hd2 payload) in
    if t =? t_ap c then ap_key (length payload) c (skipn 2 payload)
    else if t =? t_fu c then match skipn 2 payload with f :: _ => bit f 128 && irap c (Z.land f (fu_mask c)) | [] => false end
    else match c with Hevc => (t <=? 47) && irap c t | Vvc => irap c t end.

(** C32 for H.265 and H.266: which NAL units arrive. *)
From Verif Require Import Base H264Model H264Spec NalModel.

(** The type of a unit: bits 1 to 6 of the first byte in HEVC, the upper five bits of the second in VVC. *)
Definition nty (c : nal_codec) (n : list Z) : Z :=
  match c with Hevc => nth 0 n 0 / 2 mod 64 | Vvc => nth 1 n 0 / 8 end.
(** Types that mean something else in RTP. *)
Definition reserved (c : nal_codec) : list Z := match c with Hevc => [48; 49; 50] | Vvc => [28; 29] end.
(** A NAL unit of at least three bytes (header and something), forbidden bit zero, not of a type reserved
    for RTP, no start code inside (emulation prevention) and no trailing zero (RBSP stop bit). *)
Definition nalu (c : nal_codec) (n : list Z) : Prop :=
  bytes_ok n /\ 3 <= zlen n /\ nth 0 n 0 < 128 /\ ~ In (nty c n) (reserved c) /\
  (forall a b, n <> a ++ [0; 0; 1] ++ b) /\ (forall a, n <> a ++ [0]).
(** Which start codes are split off whole: H.266 only knows those of three and four bytes. *)
Definition code_ok (c : nal_codec) (k : nat) : Prop := match c with Hevc => True | Vvc => (k <= 1)%nat end.

Definition vps_type (c : nal_codec) : Z := match c with Hevc => 32 | Vvc => 14 end.
Definition sps_type (c : nal_codec) : Z := match c with Hevc => 33 | Vvc => 15 end.
Definition pps_type (c : nal_codec) : Z := match c with Hevc => 34 | Vvc => 16 end.
Definition set_types (c : nal_codec) : list Z := [vps_type c; sps_type c; pps_type c].
(** access unit delimiter and filler *)
Definition dropped_types (c : nal_codec) : list Z := match c with Hevc => [35; 38] | Vvc => [20; 25] end.
Definition random_access (c : nal_codec) (t : Z) : bool :=
  match c with Hevc => existsb (Z.eqb t) [16; 17; 18; 19; 20; 21] | Vvc => existsb (Z.eqb t) [7; 8; 9] end.
Definition isin (t : Z) (l : list Z) : bool := existsb (Z.eqb t) l.

(** The parameter sets held back. *)
Record sets := mkSets { hv : option (list Z); hs : option (list Z); hp : option (list Z) }.
Definition held (h : sets) : list (list Z) := oset (hv h) ++ oset (hs h) ++ oset (hp h).
(** Which units are delivered: delimiters and filler are dropped; the last VPS, SPS and PPS are held back until
    SPS and PPS are there and another unit follows, then go right before that unit. *)
Fixpoint delivered (c : nal_codec) (h : sets) (ns : list (list Z)) : sets * list (list Z) :=
  match ns with
  | [] => (h, [])
  | n :: r =>
      if isin (nty c n) (dropped_types c) then delivered c h r
      else if nty c n =? vps_type c then delivered c (mkSets (Some n) (hs h) (hp h)) r
      else if nty c n =? sps_type c then delivered c (mkSets (hv h) (Some n) (hp h)) r
      else if nty c n =? pps_type c then delivered c (mkSets (hv h) (hs h) (Some n)) r
      else match hs h, hp h with
           | Some _, Some _ => let (h', d) := delivered c (mkSets None None None) r in (h', held h ++ n :: d)
           | _, _ => let (h', d) := delivered c h r in (h', n :: d)
           end
  end.
(** What is held is of its type. *)
Definition holding (c : nal_codec) (h : sets) : Prop :=
  Forall (fun n => nalu c n /\ nty c n = vps_type c) (oset (hv h)) /\
  Forall (fun n => nalu c n /\ nty c n = sps_type c) (oset (hs h)) /\
  Forall (fun n => nalu c n /\ nty c n = pps_type c) (oset (hp h)).
(** Bytes DONL takes. *)
Definition donl_size (d : option Z) : Z := match d with Some _ => 2 | None => 0 end.
(** A parameter set is not fragmented: each must fit a payload by itself. *)
Definition each_fits (c : nal_codec) (d : option Z) (mtu : Z) (ns : list (list Z)) : Prop :=
  forall n, In n ns -> In (nty c n) (set_types c) ->
            zlen n + match c with Hevc => 0 | Vvc => donl_size d end <= Z.min mtu 1200.
(** The largest payload: H.265 forgets DONL when it decides whether a unit fits. *)
Definition largest (c : nal_codec) (d : option Z) (mtu : Z) : Z :=
  Z.min mtu 1200 + match c with Hevc => donl_size d | Vvc => 0 end.
(** The parameter sets come in order, directly before another unit; no delimiters or filler. *)
Inductive in_order (c : nal_codec) : list (list Z) -> Prop :=
| order_nil : in_order c []
| order_one n r : ~ In (nty c n) (set_types c ++ dropped_types c) -> in_order c r -> in_order c (n :: r)
| order_two s p n r : nty c s = sps_type c -> nty c p = pps_type c -> ~ In (nty c n) (set_types c ++ dropped_types c) ->
    in_order c r -> in_order c (s :: p :: n :: r)
| order_three v s p n r : nty c v = vps_type c -> nty c s = sps_type c -> nty c p = pps_type c ->
    ~ In (nty c n) (set_types c ++ dropped_types c) -> in_order c r -> in_order c (v :: s :: p :: n :: r).
(** The decoding order number a packet starts with (RFC 7798 4.4, RFC 9328 4.3): after the FU header of the first
    fragment of a unit, none in later fragments, after the two header bytes otherwise. *)
Definition field16 (i : nat) (q : list Z) : Z := nth i q 0 * 256 + nth (S i) q 0.
Definition donl_of (c : nal_codec) (q : list Z) : option Z :=
  if nty c q =? match c with Hevc => 49 | Vvc => 29 end
  then if 128 <=? nth 2 q 0 then Some (field16 3 q) else None
  else Some (field16 2 q).
(** The DONL counter is a 16-bit number. *)
Definition donl_ok (d : option Z) : Prop := match d with Some v => 0 <= v < U16 | None => True end.

(** What any sender that follows RFC 7798 or RFC 9328 may send for some units; [need] says whether DONL is on.
    The decoding order fields [don] and [dond] are arbitrary bytes of the right number. *)
Definition don_ok (need : bool) (don : list Z) : Prop := zlen don = if need then 2 else 0.
(** Units in an aggregate: size and unit, and with DONL in H.265 one byte before all but the first. *)
Fixpoint aggregated (c : nal_codec) (need first : bool) (us : list (list Z)) (body : list Z) : Prop :=
  match us with
  | [] => body = []
  | n :: us => exists dond rest, zlen dond = (if need && negb first then match c with Hevc => 1 | Vvc => 0 end else 0) /\
                 body = dond ++ be16 (zlen n) ++ n ++ rest /\ aggregated c need false us rest
  end.
(** The payload header of the fragments of a unit that starts with [b0; b1]. *)
Definition fu_payload_header (c : nal_codec) (b0 b1 : Z) : list Z :=
  match c with Hevc => [49 * 2 + b0 mod 2; b1] | Vvc => [b0; 29 * 8 + b1 mod 8] end.
Definition flag (b : bool) (v : Z) : Z := if b then v else 0.
(** The fragments of the rest of a unit, in any number of pieces.  [p]: H.266 marks the end of a picture. *)
Inductive fragments (c : nal_codec) (ind : list Z) (t : Z) (p : bool) : list (list Z) -> list (list Z) -> Prop :=
| frag_last d : d <> [] -> fragments c ind t p [ind ++ [64 + flag p 32 + t] ++ d] [d]
| frag_more d ps ds : d <> [] -> fragments c ind t p ps ds -> fragments c ind t p ((ind ++ [t] ++ d) :: ps) (d :: ds).
Inductive carried (c : nal_codec) (need : bool) : list (list Z) -> list (list Z) -> Prop :=
| carried_none : carried c need [] []
| carried_single b0 b1 d don ps us :
    byte_ok b0 -> byte_ok b1 -> b0 < 128 -> bytes_ok d -> d <> [] -> ~ In (nty c [b0; b1]) (reserved c) -> don_ok need don ->
    carried c need ps us -> carried c need (([b0; b1] ++ don ++ d) :: ps) (([b0; b1] ++ d) :: us)
| carried_aggregate h0 h1 don body ns ps us :
    byte_ok h0 -> byte_ok h1 -> h0 < 128 -> nty c [h0; h1] = match c with Hevc => 48 | Vvc => 28 end -> (2 <= length ns)%nat ->
    Forall (fun n => bytes_ok n /\ 2 <= zlen n < 65536 /\ ~ In (nty c n) (reserved c)) ns -> don_ok need don ->
    aggregated c need true ns body ->
    carried c need ps us -> carried c need (([h0; h1] ++ don ++ body) :: ps) (ns ++ us)
| carried_fragments b0 b1 d don qs ds p ps us :
    byte_ok b0 -> byte_ok b1 -> b0 < 128 -> d <> [] -> don_ok need don -> (p = true -> c = Vvc) ->
    fragments c (fu_payload_header c b0 b1) (nty c [b0; b1]) p qs ds ->
    carried c need ps us ->
    carried c need ((fu_payload_header c b0 b1 ++ [128 + nty c [b0; b1]] ++ don ++ d) :: qs ++ ps)
                   (([b0; b1] ++ d ++ concat ds) :: us).

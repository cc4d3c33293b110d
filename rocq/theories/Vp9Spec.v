(** C32 for VP9: the payload descriptor of RFC 9628 section 4.2 written as an encoder, independently of the
    parser, and what a receiver must make of it. *)
From Verif Require Import Base BufRxSpec Vp8Model Vp8Spec Vp9Model.

Definition b2z (b : bool) : Z := if b then 1 else 0.

(** One picture of a picture group: temporal layer, switching point, reference distances. *)
Record pic9 := mkPic { g_tid : Z; g_u : bool; g_refs : list Z }.
(** The scalability structure: number of spatial layers, their sizes, the picture group. *)
Record ss9 := mkSS { ss_layers : Z; ss_sizes : option (list (Z * Z)); ss_group : option (list pic9) }.
(** Layer indices: temporal, switching point, spatial, inter-layer dependency. *)
Record lay9 := mkLay { l_tid : Z; l_u : bool; l_sid : Z; l_d : bool; l_tl0 : Z }.
(** A descriptor. [w_pid] carries whether the long form is used. *)
Record desc9 := mkW { w_pid : option (bool * Z); w_inter : bool; w_layer : option lay9; w_flex : bool;
  w_begin : bool; w_end : bool; w_ss : option ss9; w_noref : bool; w_refs : list Z }.

(** ** On the wire *)
Definition isS {A} (o : option A) : Z := match o with Some _ => 1 | None => 0 end.
Definition enc_pid (x : bool * Z) : list Z := if fst x then [128 + snd x / 256; snd x mod 256] else [snd x].
Definition enc_lay (flex : bool) (l : lay9) : list Z :=
  (l_tid l * 32 + b2z (l_u l) * 16 + l_sid l * 2 + b2z (l_d l)) :: if flex then [] else [l_tl0 l].
(** every reference index but the last says that one more follows *)
Fixpoint enc_refs (rs : list Z) : list Z :=
  match rs with [] => [] | [r] => [r * 2] | r :: rs => (r * 2 + 1) :: enc_refs rs end.
Definition enc_size (x : Z * Z) : list Z := [fst x / 256; fst x mod 256; snd x / 256; snd x mod 256].
Definition enc_pic (p : pic9) : list Z := (g_tid p * 32 + b2z (g_u p) * 16 + zlen (g_refs p) * 4) :: g_refs p.
Definition enc_ss (s : ss9) : list Z :=
  ((ss_layers s - 1) * 32 + isS (ss_sizes s) * 16 + isS (ss_group s) * 8)
  :: match ss_sizes s with Some l => flat_map enc_size l | None => [] end
  ++ match ss_group s with Some g => zlen g :: flat_map enc_pic g | None => [] end.
Definition opt {A} (f : A -> list Z) (o : option A) : list Z := match o with Some x => f x | None => [] end.
Definition enc9 (d : desc9) : list Z :=
  (isS (w_pid d) * 128 + b2z (w_inter d) * 64 + isS (w_layer d) * 32 + b2z (w_flex d) * 16
   + b2z (w_begin d) * 8 + b2z (w_end d) * 4 + isS (w_ss d) * 2 + b2z (w_noref d))
  :: opt enc_pid (w_pid d) ++ opt (enc_lay (w_flex d)) (w_layer d)
  ++ (if w_flex d && w_inter d then enc_refs (w_refs d) else []) ++ opt enc_ss (w_ss d).

(** ** Well-formed, with at most three spatial layers (what this depacketizer supports) *)
Definition pid_ok (x : bool * Z) : Prop := 0 <= snd x < if fst x then 32768 else 128.
Definition lay_ok (l : lay9) : Prop := 0 <= l_tid l < 8 /\ 0 <= l_sid l < 3 /\ byte_ok (l_tl0 l).
Definition pic_ok (p : pic9) : Prop := 0 <= g_tid p < 8 /\ zlen (g_refs p) <= 3 /\ bytes_ok (g_refs p).
Definition ss_ok (s : ss9) : Prop :=
  1 <= ss_layers s <= 3 /\
  match ss_sizes s with Some l => zlen l = ss_layers s /\ Forall (fun x => 0 <= fst x < 65536 /\ 0 <= snd x < 65536) l | None => True end /\
  match ss_group s with Some g => zlen g < 256 /\ Forall pic_ok g | None => True end.
Definition ifS {A} (P : A -> Prop) (o : option A) : Prop := match o with Some x => P x | None => True end.
Definition desc_ok (d : desc9) : Prop :=
  ifS pid_ok (w_pid d) /\ ifS lay_ok (w_layer d) /\ ifS ss_ok (w_ss d) /\
  (w_flex d && w_inter d = true -> 1 <= zlen (w_refs d) <= 3 /\ Forall (fun r => 0 <= r < 128) (w_refs d)).

(** ** Histories: any depacketizer that has been given any packets, with any results *)
Inductive reach9 : vp9d -> Prop :=
| reach9_new : reach9 vp9d0
| reach9_step s packet out x : reach9 s -> bytes_ok packet -> length (x9_scheme (match x with Some e => e | None => vp9x0 end)) = 3%nat ->
    reach9 (fst (vp9_depacketize s packet out x)).
(** Codec information is always made by a depacketizer. *)
Definition extra_ok (x : option vp9x) : Prop := match x with Some e => length (x9_scheme e) = 3%nat | None => True end.
Definition extra (x : option vp9x) : vp9x := match x with Some e => e | None => vp9x0 end.

(** The depacketizer in the shape [feed] expects. *)
Definition vp9_dep (s : vp9d) (p out : list Z) (x : option vp9x) : vp9d * option (list Z * option vp9x) :=
  match vp9_depacketize s p out x with
  | (s', Ok (o, e)) => (s', Some (o, Some e))
  | (s', _) => (s', None)
  end.
(** Where layer [j] ends according to the codec information. *)
Definition layer_end (x : vp9x) (j : Z) : option Z := match nth_error (x9_scheme x) (Z.to_nat j) with Some o => o | None => None end.

(** What one packet tells: [x'] after [x], for media bytes following [n] bytes of the frame. *)
Definition tells (d : desc9) (n m : Z) (x x' : vp9x) : Prop :=
  match w_layer d with
  | Some l => (forall j, 0 <= j < 3 -> layer_end x' j = if j =? l_sid l then Some (n + m) else layer_end x j) /\
              x9_tid x' = Some (l_tid l) /\ x9_tl0 x' = (if w_flex d then x9_tl0 x else Some (l_tl0 l))
  | None => (forall j, 0 <= j < 3 -> layer_end x' j = layer_end x j) /\ x9_tid x' = x9_tid x /\ x9_tl0 x' = x9_tl0 x
  end /\
  match w_pid d with Some v => x9_pid x' = snd v | None => True end /\
  match w_ss d with
  | Some ss => match ss_sizes ss with
               | Some l => forall j w h, nth_error l j = Some (w, h) ->
                           nth_error (x9_widths x') j = Some (Some w) /\ nth_error (x9_heights x') j = Some (Some h)
               | None => True end
  | None => True
  end /\
  x9_key x' = (x9_key x || (negb (w_inter d) && w_begin d && match w_layer d with Some l => l_sid l =? 0 | None => true end)).

(** The total length of the media of layers up to [j]. *)
Fixpoint upto (j : Z) (ps : list (desc9 * list Z)) : Z :=
  match ps with
  | [] => 0
  | (d, m) :: ps => (match w_layer d with Some l => if l_sid l <=? j then zlen m else 0 | None => 0 end) + upto j ps
  end.
Definition sid_of (d : desc9) : Z := match w_layer d with Some l => l_sid l | None => -1 end.
(** A frame sent layer by layer, lowest first, each packet with its layer index. *)
Definition layered (ps : list (desc9 * list Z)) : Prop :=
  Forall (fun p => desc_ok (fst p) /\ w_layer (fst p) <> None) ps /\
  forall a p b q c, ps = a ++ p :: b ++ q :: c -> sid_of (fst p) <= sid_of (fst q).

(** A key frame in the VP9 bitstream (VP9 specification 6.2): frame marker 10, the two profile bits (low first), one
    reserved bit in profile 3 only, then not showing an existing frame, then frame type 0. *)
Definition bits8 (b : Z) : list bool := map (Z.testbit b) [7; 6; 5; 4; 3; 2; 1; 0].
Definition key_frame9 (payload : list Z) : Prop :=
  exists b r low high rest, payload = b :: r /\ bits8 b = true :: false :: low :: high :: rest /\
    exists reserved tl, rest = reserved ++ false :: false :: tl /\ zlen reserved = if low && high then 1 else 0.
Definition profile9 (b : Z) : Z := 2 * b2z (Z.testbit b 4) + b2z (Z.testbit b 5).

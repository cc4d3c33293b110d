(** C11: what a received frame is, independently of how the buffer finds it. *)
From Verif Require Import Base BufRxModel.

(** The packets offered to the buffer, with their payload (padding has none). *)
Definition offered (ops : list op) : list (meta * list Z) :=
  flat_map (fun o => match o with Push m d => [(m, d)] | PushPadding m => [(m, [])] | Pop => [] end) ops.

Section Spec.
Context {DS X : Type}.
Variable xnone : X.
Variable dep : DS -> list Z -> list Z -> X -> DS * option (list Z * X).

(** Feed payloads to the codec one after the other. *)
Fixpoint feed (d : DS) (ps : list (list Z)) (data : list Z) (x : X) : DS * option (list Z * X) :=
  match ps with
  | [] => (d, Some (data, x))
  | p :: ps' => match dep d p data x with
                | (d', Some (data', x')) => feed d' ps' data' x'
                | (d', None) => (d', None)
                end
  end.

(** [f] is made of offered packets [pk]: at least one, of one RTP time, with consecutive sequence
    numbers, and its data is what the codec makes of their payloads. *)
Definition genuine (packets : list (meta * list Z)) (f : @frame X) : Prop :=
  exists pk, pk <> [] /\ incl pk packets /\ map fst pk = fmeta f /\
    (exists s, map seq (fmeta f) = zseq s (length (fmeta f))) /\
    (forall m, In m (fmeta f) -> time m = ftime f) /\
    exists d d', feed d (map snd pk) [] xnone = (d', Some (fdata f, fextra f)).
End Spec.

(** Frames come out in order of sequence numbers, none twice. *)
Definition in_order {X} (fs : list (@frame X)) : Prop :=
  forall a f b g c, fs = a ++ f :: b ++ g :: c ->
  forall m m', In m (fmeta f) -> In m' (fmeta g) -> seq m < seq m'.

(** Packets are offered in strictly increasing order (some may be missing). *)
Definition increasing (ops : list op) : Prop :=
  forall a m d b m' d' c, offered ops = a ++ (m, d) :: b ++ (m', d') :: c -> seq m < seq m'.

(** A packet with this number and no payload was offered (padding). *)
Definition padded (packets : list (meta * list Z)) (n : Z) : Prop := exists m, In (m, []) packets /\ seq m = n.
(** The last and first number of a frame. *)
Definition ends {X} (f : @frame X) (l : Z) : Prop := exists ms m, fmeta f = ms ++ [m] /\ seq m = l.
Definition begins {X} (f : @frame X) (s : Z) : Prop := exists m ms, fmeta f = m :: ms /\ seq m = s.
(** Between neighbouring frames, if the second is marked contiguous, there was only padding. *)
Definition gap_ok {X} (P : list (meta * list Z)) (fs : list (@frame X)) : Prop :=
  forall a f g c, fs = a ++ f :: g :: c -> contiguous g = true ->
  forall l s n, ends f l -> begins g s -> l < n < s -> padded P n.


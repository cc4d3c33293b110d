(** C32 for H.264: which NAL units arrive. *)
From Verif Require Import Base H264Model.

(** A NAL unit as H.264 defines it: not empty, forbidden bit zero, no start code inside (emulation
    prevention) and no trailing zero (RBSP stop bit).  Type 1 to 23. *)
Definition nal (n : list Z) : Prop :=
  bytes_ok n /\ (exists b r, n = b :: r /\ b < 128 /\ 1 <= nal_type b <= 23) /\
  (forall a b, n <> a ++ [0; 0; 1] ++ b) /\ (forall a, n <> a ++ [0]).
(** Annex B: every unit behind a start code of two or more zeros and a one. *)
Definition code (k : nat) : list Z := repeat 0 (S (S k)) ++ [1].
Definition annex_b (us : list (nat * list Z)) : list Z := concat (map (fun '(k, n) => code k ++ n) us).
(** What the receiver writes for a list of units: start codes or lengths. *)
Definition framed (avc : bool) (ns : list (list Z)) : list Z :=
  concat (map (fun n => (if avc then be32 (zlen n) else start_code) ++ n) ns).
Definition ty (n : list Z) : Z := match n with b :: _ => nal_type b | [] => 0 end.

(** Which units are delivered: access unit delimiters and filler are dropped; parameter sets are held
    back until both are there and another unit follows, then go right before that unit. *)
Fixpoint deliver (s p : option (list Z)) (ns : list (list Z)) : (option (list Z) * option (list Z)) * list (list Z) :=
  match ns with
  | [] => ((s, p), [])
  | n :: r =>
      if (ty n =? 9) || (ty n =? 12) then deliver s p r
      else if ty n =? 7 then deliver (Some n) p r
      else if ty n =? 8 then deliver s (Some n) r
      else match s, p with
           | Some a, Some b => let (h, d) := deliver None None r in (h, a :: b :: n :: d)
           | _, _ => let (h, d) := deliver s p r in (h, n :: d)
           end
  end.
(** Parameter sets come in pairs, SPS first, directly before another unit; no delimiters or filler. *)
Inductive paired : list (list Z) -> Prop :=
| paired_nil : paired []
| paired_one n r : ~ In (ty n) [7; 8; 9; 12] -> paired r -> paired (n :: r)
| paired_sets a b n r : ty a = 7 -> ty b = 8 -> ~ In (ty n) [7; 8; 9; 12] -> paired r -> paired (a :: b :: n :: r).
(** Any two parameter sets fit one payload. *)
Definition sets_fit (mtu : Z) (ns : list (list Z)) : Prop :=
  forall a b, In a ns -> In b ns -> ty a = 7 -> ty b = 8 -> zlen a <= 65535 /\ zlen b <= 65535 /\ 5 + zlen a + zlen b <= mtu.
Definition olist (o : option (list Z)) : list (list Z) := match o with Some n => [n] | None => [] end.
(** The packetizer holds, if anything, a SPS and a PPS. *)
Definition holds (s p : option (list Z)) : Prop :=
  Forall (fun n => nal n /\ ty n = 7) (olist s) /\ Forall (fun n => nal n /\ ty n = 8) (olist p).

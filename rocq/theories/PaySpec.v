(** What a user expects of payload type negotiation, in terms of the configured parameters. *)
From Verif Require Import Base PayModel.

(** All payload type numbers a configuration uses, for media and for resends. *)
Definition numbers (cfg : list pp) : list Z :=
  flat_map (fun p => match p_resend p with Some r => [p_pt p; r] | None => [p_pt p] end) cfg.

(** Two H.26x parameter sets describe the same profile (and tier, when both say it). *)
Definition profile_of (full : option ptl) (id : option Z) : Z :=
  match full, id with Some p, _ => pl_profile p | None, Some i => i mod 256 | None, None => 1 end.
Definition same_profile (full full' : option ptl) (id id' : option Z) : Prop :=
  profile_of full id = profile_of full' id' /\
  match full, full' with Some p, Some q => pl_tier p = pl_tier q | _, _ => True end.

(** H.264 profile (RFC 6184 table 5) of a profile-level-id; absent means baseline. *)
Definition bit (v n : Z) : bool := Z.testbit v n.
Definition rfc6184_profile (idc iop : Z) : option h264profile :=
  let low4 := Z.land iop 15 in
  if (idc =? 66) && (low4 =? 0) then Some (if bit iop 6 then ConstrainedBaseline else Baseline)
  else if (idc =? 77) && (low4 =? 0) then (if bit iop 7 then Some ConstrainedBaseline else if bit iop 5 then None else Some Main)
  else if (idc =? 88) && (low4 =? 0) then
    (if bit iop 7 then Some (if bit iop 6 then ConstrainedBaseline else Baseline) else if bit iop 6 then None else Some Extended)
  else if idc =? 100 then (if iop =? 0 then Some High else if iop =? 12 then Some ConstrainedHigh else None)
  else if idc =? 110 then (if iop =? 0 then Some High10 else if iop =? 16 then Some High10Intra else None)
  else if idc =? 122 then (if iop =? 0 then Some High422 else if iop =? 16 then Some High422Intra else None)
  else if idc =? 244 then (if iop =? 0 then Some High444Predictive else if iop =? 16 then Some High444Intra else None)
  else if idc =? 44 then (if iop =? 16 then Some CAVLC444Intra else None)
  else None.
Definition levels264 : list Z := [0; 10; 11; 12; 13; 20; 21; 22; 30; 31; 32; 40; 41; 42; 50; 51; 52].
Definition h264_profile (f : fmt) : option h264profile :=
  match f_plid f with
  | None => Some Baseline
  | Some v => if existsb (Z.eqb (v mod 256)) levels264 then rfc6184_profile ((v / 65536) mod 256) ((v / 256) mod 256) else None
  end.

(** The parameters agree for this codec. *)
Definition formats_agree (c : codec) (f g : fmt) : Prop :=
  match c with
  | Opus => True
  | H264 => dflt 0 (f_pmode f) = dflt 0 (f_pmode g) /\ h264_profile f = h264_profile g /\ h264_profile f <> None
  | H265 => same_profile (f_h265 f) (f_h265 g) (f_pid f) (f_pid g)
  | H266 => same_profile (f_h266 f) (f_h266 g) (f_pid f) (f_pid g)
  | Vp9 => dflt 0 (f_pid f) = dflt 0 (f_pid g)
  | Av1 => dflt 0 (f_profile f) = dflt 0 (f_profile g) /\ dflt 5 (f_level_idx f) = dflt 5 (f_level_idx g) /\
           dflt 0 (f_tier f) = dflt 0 (f_tier g)
  | _ => False
  end.
(** Two codec specifications can talk to each other. *)
Definition compatible (s t : spec) : Prop :=
  s = t \/
  (s_codec s = s_codec t /\ s_clock s = s_clock t /\ s_channels s = s_channels t /\ formats_agree (s_codec s) (s_fmt s) (s_fmt t)).

(** A remote specification fits at most one entry of the configuration. *)
Definition separated (cfg : list pp) : Prop :=
  forall s p q, In p cfg -> In q cfg -> compatible (p_spec p) s -> compatible (p_spec q) s -> p = q.

(** The same numbers for media and resends. *)
Definition same_numbers (p q : pp) : Prop := p_pt p = p_pt q /\ p_resend p = p_resend q.

(** ** H.265 and H.266: the negotiated profile, tier and level: the remote's profile and tier, the lower of the levels *)
Definition agreed (loc rem got : option ptl) : Prop :=
  match rem with
  | None => got = None
  | Some r => exists g, got = Some g /\ pl_profile g = pl_profile r /\ pl_tier g = pl_tier r /\
      pl_level g <= pl_level r /\ (forall l, loc = Some l -> pl_level g <= pl_level l) /\
      (pl_level g = pl_level r \/ exists l, loc = Some l /\ pl_level g = pl_level l)
  end.

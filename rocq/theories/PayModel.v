(** Model of codec configuration and payload type negotiation.
    /repo/src/format/payload_params.rs, codec_config.rs, codec.rs, format_params.rs,
    /repo/src/packet/{h264,h265,h266}_profile.rs, /repo/src/util/bit_pattern.rs,
    the payload type parts of /repo/src/sdp/data.rs (rtp_params, as_media_attrs) and
    /repo/src/change/sdp.rs (update_media, add_new_lines, as_media_line), media/mod.rs:520-530.

    Payload types and numeric parameters are [Z] (u8/u16/u32 in the source).  The claimed array of 128 booleans is the
    list of claimed numbers, indexing it with 128 or more panics.  The HashSet of unlocked numbers is a list.
    Logs are left out. *)
From Coq Require Import String Ascii.
From Verif Require Import Base.

(** codec.rs:47-78 *)
Inductive codec := Opus | PCMU | PCMA | G722 | CN | H264 | H265 | H266 | Vp8 | Vp9 | Av1 | Rtx | Null | Unknown.
Scheme Equality for codec.
(** codec.rs:85-94 *)
Definition is_audio (c : codec) : bool :=
  match c with Opus | PCMU | PCMA | G722 | CN => true | _ => false end.
Definition is_video (c : codec) : bool :=
  match c with H266 | H265 | H264 | Vp8 | Vp9 | Av1 => true | _ => false end.

(** h265_profile.rs:9-14, h266_profile.rs:15-20: profile (its id), tier (0 or 1), level (its ordinal). *)
Record ptl := mkPtl { pl_profile : Z; pl_tier : Z; pl_level : Z }.
(** with_level, h265_profile.rs:69-71 *)
Definition with_level (p : ptl) (l : Z) : ptl := mkPtl (pl_profile p) (pl_tier p) l.
(** position in a list, the ordinal of a level id (h265_profile.rs:231-268, h266_profile.rs:229-270) *)
Fixpoint index_of (x : Z) (l : list Z) (i : Z) : option Z :=
  match l with [] => None | y :: r => if x =? y then Some i else index_of x r (i + 1) end.
Definition h265_levels : list Z := [30; 60; 63; 90; 93; 120; 123; 150; 153; 156; 180; 183; 186].
Definition h266_levels : list Z := [16; 32; 35; 48; 51; 64; 67; 80; 83; 86; 96; 99; 102; 105; 255].
Definition h265_profiles : list Z := [1; 2; 3; 4; 5; 6; 7; 8; 9; 10; 11].
Definition h266_profiles : list Z := [1; 17; 33; 49; 65; 81; 97; 113].
(** h265_profile.rs:29-39, h266_profile.rs:35-45 new *)
Definition ptl_new (profiles levels : list Z) (p t l : Z) : option ptl :=
  if negb (existsb (Z.eqb p) profiles) then None
  else if negb ((t =? 0) || (t =? 1)) then None
  else match index_of l levels 0 with None => None | Some o => Some (mkPtl p t o) end.
Definition h265_new := ptl_new h265_profiles h265_levels.
Definition h266_new := ptl_new h266_profiles h266_levels.
(** h265_profile.rs:20-24, h266_profile.rs:26-30 FALLBACK: profile 1, main tier, level 3.1 *)
Definition fallback_profile : Z := 1.
(** to_id (h265_profile.rs:271, h266_profile.rs:273): from the ordinal back to the id *)
Definition level_id (levels : list Z) (o : Z) : Z := nth (Z.to_nat o) levels 0.

(** format_params.rs:7-111 *)
Record fmt := mkFmt {
  f_minptime : option Z; f_stereo : option bool; f_sprop_stereo : option bool; f_fec : option bool;
  f_dtx : option bool; f_asym : option bool; f_pmode : option Z; f_plid : option Z; f_pid : option Z;
  f_profile : option Z; f_level_idx : option Z; f_tier : option Z;
  f_h265 : option ptl; f_h266 : option ptl; f_don : option Z }.
Definition fmt0 : fmt := mkFmt None None None None None None None None None None None None None None None.
(** codec.rs:9-24 *)
Record spec := mkSpec { s_codec : codec; s_clock : Z; s_channels : option Z; s_fmt : fmt }.
(** the derived PartialEq *)
Definition opt_eq_dec {A} (d : forall x y : A, {x = y} + {x <> y}) (a b : option A) : {a = b} + {a <> b}.
Proof. decide equality. Defined.
Definition ptl_eq_dec (a b : ptl) : {a = b} + {a <> b}.
Proof. decide equality; apply Z.eq_dec. Defined.
Definition fmt_eq_dec (a b : fmt) : {a = b} + {a <> b}.
Proof. decide equality; try apply (opt_eq_dec Z.eq_dec); try apply (opt_eq_dec Bool.bool_dec); apply (opt_eq_dec ptl_eq_dec). Defined.
Definition spec_eq_dec (a b : spec) : {a = b} + {a <> b}.
Proof. decide equality; [apply fmt_eq_dec | apply (opt_eq_dec Z.eq_dec) | apply Z.eq_dec | apply codec_eq_dec]. Defined.

(** bit_pattern.rs:9-66: a pattern is eight characters ('0' = 48, '1' = 49, 'x' = 120), most significant first. *)
Fixpoint pat_mask (p : list Z) : Z :=
  match p with [] => 0 | c :: r => (if c =? 120 then 0 else 2 ^ zlen r) + pat_mask r end.
Fixpoint pat_value (p : list Z) : Z :=
  match p with [] => 0 | c :: r => (if c =? 49 then 2 ^ zlen r else 0) + pat_value r end.
Definition pat_matches (p : list Z) (iop : Z) : bool := Z.land (Z.lxor iop (pat_value p)) (pat_mask p) =? 0.

(** h264_profile.rs:183-197 *)
Inductive h264profile := Baseline | ConstrainedBaseline | Main | Extended | High | ConstrainedHigh | High10
  | High422 | High444Predictive | High10Intra | High422Intra | High444Intra | CAVLC444Intra.
Scheme Equality for h264profile.
(** bit_pattern.rs:18: the characters of a byte string literal *)
Definition pat (s : string) : list Z := map (fun c => Z.of_N (N_of_ascii c)) (list_ascii_of_string s).
(** h264_profile.rs:26-114 *)
Definition h264_table : list (h264profile * Z * list Z) := [
  (ConstrainedBaseline, 66, pat "x1xx0000"); (ConstrainedBaseline, 77, pat "1xxx0000");
  (ConstrainedBaseline, 88, pat "11xx0000"); (Baseline, 66, pat "x0xx0000");
  (Baseline, 88, pat "10xx0000"); (Main, 77, pat "0x0x0000"); (Extended, 88, pat "00xx0000");
  (High, 100, pat "00000000"); (ConstrainedHigh, 100, pat "00001100"); (High10, 110, pat "00000000");
  (High422, 122, pat "00000000"); (High444Predictive, 244, pat "00000000");
  (High10Intra, 110, pat "00010000"); (High422Intra, 122, pat "00010000");
  (High444Intra, 244, pat "00010000"); (CAVLC444Intra, 44, pat "00010000")].
(** h264_profile.rs:204-231 profile_idc values *)
Definition h264_idcs : list Z := [44; 66; 77; 88; 100; 110; 122; 244].
(** h264_profile.rs:240-326: (value, ordinal); Level1B is value 0 with ordinal 1 *)
Definition h264_level_ord (v : Z) : option Z :=
  if v =? 0 then Some 1
  else if v =? 10 then Some 0
  else match index_of v [11; 12; 13; 20; 21; 22; 30; 31; 32; 40; 41; 42; 50; 51; 52] 2 with
       | Some n => Some n | None => None end.
(** h264_profile.rs:119-134 new *)
Definition h264_profile_of (idc iop : Z) : option h264profile :=
  match find (fun '(_, e, p) => (e =? idc) && pat_matches p iop) h264_table with
  | Some (pr, _, _) => Some pr | None => None end.
(** h264_profile.rs:150-179 try_from: profile and level ordinal *)
Definition h264_parse (v : Z) : option (h264profile * Z) :=
  let idc := (v / 65536) mod 256 in let iop := (v / 256) mod 256 in let lv := v mod 256 in
  if negb (existsb (Z.eqb idc) h264_idcs) then None
  else match h264_level_ord lv with
  | None => None
  | Some l =>
      let l := if ((idc =? 66) || (idc =? 77) || (idc =? 88)) && (l =? 0)
               then (if negb (Z.land iop 16 =? 0) then 1 else 0) else l in
      match h264_profile_of idc iop with None => None | Some p => Some (p, l) end
  end.
(** h264_profile.rs:16-19 FALLBACK *)
Definition h264_fallback : h264profile * Z := (Baseline, 9).

Definition dflt {A} (d : A) (v : option A) : A := match v with Some x => x | None => d end.
(** saturating_sub on usize *)
Definition ssub (a b : Z) : Z := Z.max 0 (a - b).
Definition is_some {A} (o : option A) : bool := match o with Some _ => true | None => false end.
Definition oeqb {A} (d : forall x y : A, {x = y} + {x <> y}) (a b : option A) : bool :=
  if opt_eq_dec d a b then true else false.

(** payload_params.rs:323-364 *)
Definition score_opus (a b : fmt) : Z :=
  let s := 100 in
  let s := if (is_some (f_minptime a) || is_some (f_minptime b)) && negb (oeqb Z.eq_dec (f_minptime a) (f_minptime b)) then ssub s 1 else s in
  let s := if (is_some (f_fec a) || is_some (f_fec b)) && negb (oeqb Bool.bool_dec (f_fec a) (f_fec b)) then ssub s 2 else s in
  let s := if (is_some (f_dtx a) || is_some (f_dtx b)) && negb (oeqb Bool.bool_dec (f_dtx a) (f_dtx b)) then ssub s 4 else s in
  let s := if negb (eqb (dflt false (f_stereo a)) (dflt false (f_stereo b))) then ssub s 8 else s in
  if negb (eqb (dflt false (f_sprop_stereo a)) (dflt false (f_sprop_stereo b))) then ssub s 8 else s.
(** payload_params.rs:366-376 *)
Definition score_vp9 (a b : fmt) : option Z :=
  if negb (dflt 0 (f_pid a) =? dflt 0 (f_pid b)) then None else Some 100.
(** payload_params.rs:378-407 *)
Definition score_av1 (a b : fmt) : option Z :=
  if negb (dflt 0 (f_profile a) =? dflt 0 (f_profile b)) then None
  else if negb (dflt 5 (f_level_idx a) =? dflt 5 (f_level_idx b)) then None
  else if negb (dflt 0 (f_tier a) =? dflt 0 (f_tier b)) then None else Some 100.
(** payload_params.rs:409-448 *)
Definition h264_pl (a : fmt) : option (h264profile * Z) :=
  match f_plid a with Some v => h264_parse v | None => Some h264_fallback end.
Definition score_h264 (a b : fmt) : option Z :=
  if negb (dflt 0 (f_pmode a) =? dflt 0 (f_pmode b)) then None
  else match h264_pl a with None => None | Some (pa, la) =>
       match h264_pl b with None => None | Some (pb, lb) =>
         if negb (h264profile_beq pa pb) then None else Some (ssub 100 (Z.abs (la - lb)))
       end end.
(** payload_params.rs:474-535 and 537-591 (the same text with the other field) *)
Definition profile_only (p : option ptl) (pid : option Z) : Z :=
  match p with
  | Some p => pl_profile p
  | None => match pid with Some v => v mod 256 | None => fallback_profile end
  end.
Definition score_h26x (pa pb : option ptl) (ia ib : option Z) : option Z :=
  match pa, pb with
  | Some a, Some b =>
      if negb (pl_profile a =? pl_profile b) then None
      else if negb (pl_tier a =? pl_tier b) then None
      else Some (ssub 100 (Z.abs (pl_level a - pl_level b)))
  | _, _ => if negb (profile_only pa ia =? profile_only pb ib) then None else Some 90
  end.

(** payload_params.rs:267-321 match_score *)
Definition score (c0 c1 : spec) : option Z :=
  if spec_eq_dec c0 c1 then Some 100
  else if negb (codec_beq (s_codec c0) (s_codec c1)) || (codec_beq (s_codec c0) Unknown && codec_beq (s_codec c1) Unknown) then None
  else if negb (s_clock c0 =? s_clock c1) then None
  else if negb (oeqb Z.eq_dec (s_channels c0) (s_channels c1)) then None
  else match s_codec c0 with
       | Opus => Some (score_opus (s_fmt c0) (s_fmt c1))
       | H264 => score_h264 (s_fmt c0) (s_fmt c1)
       | H265 => score_h26x (f_h265 (s_fmt c0)) (f_h265 (s_fmt c1)) (f_pid (s_fmt c0)) (f_pid (s_fmt c1))
       | H266 => score_h26x (f_h266 (s_fmt c0)) (f_h266 (s_fmt c1)) (f_pid (s_fmt c0)) (f_pid (s_fmt c1))
       | Vp9 => score_vp9 (s_fmt c0) (s_fmt c1)
       | Av1 => score_av1 (s_fmt c0) (s_fmt c1)
       | _ => None
       end.

(** payload_params.rs:79-112 *)
Record pp := mkPp { p_pt : Z; p_resend : option Z; p_spec : spec; p_tcc : bool; p_nack : bool;
  p_pli : bool; p_fir : bool; p_remb : bool; p_locked : bool }.
Definition set_spec (p : pp) (s : spec) : pp :=
  mkPp (p_pt p) (p_resend p) s (p_tcc p) (p_nack p) (p_pli p) (p_fir p) (p_remb p) (p_locked p).
Definition set_pts (p : pp) (pt : Z) (r : option Z) (lk : bool) : pp :=
  mkPp pt r (p_spec p) (p_tcc p) (p_nack p) (p_pli p) (p_fir p) (p_remb p) lk.

(** Iterator::max_by_key: the last of the maxima. *)
Fixpoint max_from {A} (key : A -> Z) (cur : A) (l : list A) : A :=
  match l with [] => cur | y :: r => max_from key (if key cur <=? key y then y else cur) r end.
Definition max_by {A} (key : A -> Z) (l : list A) : option A :=
  match l with [] => None | y :: r => Some (max_from key y r) end.
(** Option<usize> ordering: None below every Some *)
Definition okey (s : option Z) : Z := match s with None => -1 | Some v => v end.

(** payload_params.rs:13-25, 47-63 *)
Definition preferred : list Z := zseq 96 32 ++ zseq 80 16 ++ zseq 77 2 ++ zseq 35 37.
Definition mem (v : Z) (l : list Z) : bool := existsb (Z.eqb v) l.
Definition find_unclaimed (claimed unlocked : list Z) : option Z :=
  find (fun v => negb (mem v claimed) && negb (mem v unlocked)) preferred.
(** payload_params.rs:38-46 *)
Definition claim_once (claimed : list Z) (pt : Z) : res (list Z) :=
  if 127 <? pt then Panic else if mem pt claimed then Panic else Ok (pt :: claimed).
Definition is_claimed (claimed : list Z) (pt : Z) : res bool :=
  if 127 <? pt then Panic else Ok (mem pt claimed).
Definition zremove (v : Z) (l : list Z) : list Z := filter (fun w => negb (v =? w)) l.

(** payload_params.rs:608-638 (field [g]et, [s]et of the H.265 parameters), 641-669 *)
Definition neg_ptl (loc rem : option ptl) : option ptl :=
  match rem with
  | None => None
  | Some r => match loc with Some l => Some (with_level r (Z.min (pl_level l) (pl_level r))) | None => Some r end
  end.
Definition neg_pid (rem : option ptl) (rpid : option Z) : option Z :=
  match rem with Some _ => None | None => rpid end.
Definition neg_don (loc rem : option Z) : option Z := match rem with Some v => Some v | None => loc end.
Definition neg_fmt (c : codec) (l r : fmt) : fmt :=
  match c with
  | H265 => mkFmt (f_minptime l) (f_stereo l) (f_sprop_stereo l) (f_fec l) (f_dtx l) (f_asym l) (f_pmode l) (f_plid l)
             (neg_pid (f_h265 r) (f_pid r)) (f_profile l) (f_level_idx l) (f_tier l)
             (neg_ptl (f_h265 l) (f_h265 r)) (f_h266 l) (neg_don (f_don l) (f_don r))
  | H266 => mkFmt (f_minptime l) (f_stereo l) (f_sprop_stereo l) (f_fec l) (f_dtx l) (f_asym l) (f_pmode l) (f_plid l)
             (neg_pid (f_h266 r) (f_pid r)) (f_profile l) (f_level_idx l) (f_tier l)
             (f_h265 l) (neg_ptl (f_h266 l) (f_h266 r)) (neg_don (f_don l) (f_don r))
  | _ => l
  end.
Definition neg_spec (l r : spec) : spec :=
  if codec_beq (s_codec l) (s_codec r)
  then mkSpec (s_codec l) (s_clock l) (s_channels l) (neg_fmt (s_codec l) (s_fmt l) (s_fmt r)) else l.

(** payload_params.rs:600-606: the remote parameters that fit best *)
Definition best_remote (p : pp) (remote : list pp) : option pp :=
  max_by (fun r => okey (score (p_spec p) (p_spec r)))
         (filter (fun r => is_some (score (p_spec p) (p_spec r))) remote).

(** payload_params.rs:703-723, 726-749: the number to lock, remapped when taken and ours to choose *)
Definition remap (ctrl : bool) (own : option Z) (pt : Z) (cl un : list Z) : res (Z * list Z) :=
  if ctrl then
    do c <- is_claimed cl pt;
    if c then
      do free <- (match own with
                  | Some v => do k <- is_claimed cl v; Ok (if k then None else Some v)
                  | None => Ok None end);
      match (match free with Some v => Some v | None => find_unclaimed cl un end) with
      | None => Panic
      | Some v => Ok (v, zremove v un)
      end
    else Ok (pt, un)
  else Ok (pt, un).

(** payload_params.rs:593-754 update_param: the parameters, claimed and unlocked numbers afterwards *)
Definition update_param (p : pp) (remote : list pp) (cl : list Z) (ctrl : bool) (un : list Z)
  : res (pp * list Z * list Z) :=
  match best_remote p remote with
  | None => Ok (p, cl, un)
  | Some r =>
      let p := set_spec p (neg_spec (p_spec p) (p_spec r)) in
      if p_locked p then Ok (p, cl, un)
      else
        do (pt, un) <- remap ctrl (Some (p_pt p)) (p_pt r) cl un;
        do cl <- claim_once cl pt;
        match p_resend r with
        | None => Ok (set_pts p pt None true, cl, un)
        | Some rtx =>
            do (rtx, un) <- remap ctrl (p_resend p) rtx cl un;
            do cl <- claim_once cl rtx;
            Ok (set_pts p pt (Some rtx) true, cl, un)
        end
  end.

(** codec_config.rs:466-477 *)
Definition claim_resend (cl : list Z) (r : option Z) : res (list Z) :=
  match r with None => Ok cl | Some v => claim_once cl v end.
Fixpoint claim_locked (cfg : list pp) (cl : list Z) : res (list Z) :=
  match cfg with
  | [] => Ok cl
  | p :: r => if p_locked p then do cl <- claim_once cl (p_pt p); do cl <- claim_resend cl (p_resend p); claim_locked r cl
              else claim_locked r cl
  end.
(** codec_config.rs:480-486 *)
Definition own_pts (p : pp) : list Z := p_pt p :: match p_resend p with Some v => [v] | None => [] end.
Definition unlocked_pts (cfg : list pp) : list Z := flat_map own_pts (filter (fun p => negb (p_locked p)) cfg).
(** codec_config.rs:496-503 *)
Fixpoint update_all (cfg remote : list pp) (ctrl : bool) (cl un : list Z) : res (list pp * list Z * list Z) :=
  match cfg with
  | [] => Ok ([], cl, un)
  | p :: r =>
      do (a, un) <- update_param p remote cl ctrl un;
      let (p, cl) := a in
      do (b, un) <- update_all r remote ctrl cl un;
      let (r, cl) := b in Ok (p :: r, cl, un)
  end.
(** codec_config.rs:511-522, 528-539 *)
Definition move (v : Z) (cl un : list Z) : res (Z * list Z * list Z) :=
  do c <- is_claimed cl v;
  if c then match find_unclaimed cl un with
            | None => Panic
            | Some w => do cl <- claim_once cl w; Ok (w, cl, zremove w un)
            end
  else Ok (v, cl, un).
(** codec_config.rs:506-540 *)
Fixpoint reassign (cfg : list pp) (cl un : list Z) : res (list pp) :=
  match cfg with
  | [] => Ok []
  | p :: r =>
      if p_locked p then do r <- reassign r cl un; Ok (p :: r)
      else
        do (a, un) <- move (p_pt p) cl un;
        let (pt, cl) := a in
        match p_resend p with
        | None => do r <- reassign r cl un; Ok (set_pts p pt None false :: r)
        | Some v =>
            do (b, un) <- move v cl un;
            let (rtx, cl) := b in
            do r <- reassign r cl un; Ok (set_pts p pt (Some rtx) false :: r)
        end
  end.
(** codec_config.rs:462-541 update_params; [rrecv] is remote_dir.sdp_is_receiving() *)
Definition update_params (cfg remote : list pp) (rrecv : bool) : res (list pp) :=
  do cl <- claim_locked cfg [];
  let un := unlocked_pts cfg in
  do (a, un) <- update_all cfg remote (negb rrecv) cl un;
  let (cfg, cl) := a in
  reassign cfg cl un.

(** codec_config.rs:422-426 match_params (score of the configured against the given) *)
Definition match_params (cfg : list pp) (q : pp) : option pp :=
  match max_by (fun p => okey (score (p_spec p) (p_spec q))) cfg with
  | None => None
  | Some c => if is_some (score (p_spec c) (p_spec q)) then Some c else None
  end.
(** codec_config.rs:429-445 *)
Definition sdp_match_remote (cfg : list pp) (q : pp) (rrecv : bool) : option Z :=
  match match_params cfg q with
  | None => None
  | Some c => Some (if rrecv then p_pt q else p_pt c)
  end.
(** sdp.rs:1329-1335 with media/mod.rs:520-530 for a media without payload types yet *)
Fixpoint filter_map {A B} (f : A -> option B) (l : list A) : list B :=
  match l with [] => [] | y :: r => match f y with Some v => v :: filter_map f r | None => filter_map f r end end.
Definition remote_pts (cfg remote : list pp) (rrecv : bool) : list Z :=
  filter_map (fun q => sdp_match_remote cfg q rrecv) remote.
(** sdp.rs:873-879 (all_for_kind, codec_config.rs:452-460) and 1512-1524: the parameters written in an m-line *)
Definition of_kind (video : bool) (p : pp) : bool :=
  if video then is_video (s_codec (p_spec p)) else is_audio (s_codec (p_spec p)).
Definition line_params (cfg : list pp) (video : bool) (pts : list Z) : list pp :=
  filter (fun p => mem (p_pt p) pts) (filter (of_kind video) cfg).

(** data.rs:924-990 *)
Inductive fparam := MinPTime (v : Z) | Stereo (v : bool) | SpropStereo (v : bool) | UseInbandFec (v : bool)
  | UseDtx (v : bool) | LevelAsymmetryAllowed (v : bool) | PacketizationMode (v : Z) | ProfileLevelId (v : Z)
  | ProfileId (v : Z) | Profile (v : Z) | LevelIdx (v : Z) | Tier (v : Z) | FH265 (v : ptl) | FH266 (v : ptl)
  | SpropMaxDonDiff (v : Z) | Apt (v : Z) | FUnknown.
(** format_params.rs:141-162 *)
Definition set_param (f : fmt) (q : fparam) : fmt :=
  match f with mkFmt a b c d e g h j k l m n p q' r =>
  match q with
  | MinPTime v => mkFmt (Some v) b c d e g h j k l m n p q' r
  | Stereo v => mkFmt a (Some v) c d e g h j k l m n p q' r
  | SpropStereo v => mkFmt a b (Some v) d e g h j k l m n p q' r
  | UseInbandFec v => mkFmt a b c (Some v) e g h j k l m n p q' r
  | UseDtx v => mkFmt a b c d (Some v) g h j k l m n p q' r
  | LevelAsymmetryAllowed v => mkFmt a b c d e (Some v) h j k l m n p q' r
  | PacketizationMode v => mkFmt a b c d e g (Some v) j k l m n p q' r
  | ProfileLevelId v => mkFmt a b c d e g h (Some v) k l m n p q' r
  | ProfileId v => mkFmt a b c d e g h j (Some v) l m n p q' r
  | Profile v => mkFmt a b c d e g h j k (Some v) m n p q' r
  | LevelIdx v => mkFmt a b c d e g h j k l (Some v) n p q' r
  | Tier v => mkFmt a b c d e g h j k l m (Some v) p q' r
  | FH265 v => mkFmt a b c d e g h j k l m n (Some v) q' r
  | FH266 v => mkFmt a b c d e g h j k l m n p (Some v) r
  | SpropMaxDonDiff v => mkFmt a b c d e g h j k l m n p q' (Some v)
  | Apt _ => f
  | FUnknown => f
  end end.
Definition opt1 {A B} (f : A -> B) (v : option A) : list B := match v with Some v => [f v] | None => [] end.
(** format_params.rs:164-217 *)
Definition to_format_param (f : fmt) : list fparam :=
  opt1 MinPTime (f_minptime f) ++ opt1 Stereo (f_stereo f) ++ opt1 SpropStereo (f_sprop_stereo f)
  ++ opt1 UseInbandFec (f_fec f) ++ opt1 UseDtx (f_dtx f) ++ opt1 LevelAsymmetryAllowed (f_asym f)
  ++ opt1 PacketizationMode (f_pmode f) ++ opt1 ProfileLevelId (f_plid f) ++ opt1 ProfileId (f_pid f)
  ++ opt1 Profile (f_profile f) ++ opt1 LevelIdx (f_level_idx f) ++ opt1 Tier (f_tier f)
  ++ opt1 FH265 (f_h265 f) ++ opt1 FH266 (f_h266 f) ++ opt1 SpropMaxDonDiff (f_don f).

(** The media attributes these functions read and write.  A feedback value is one of the five known ones or another. *)
Inductive fb := Remb | Tcc | Fir | Nack | Pli | OtherFb.
Inductive attr := RtpMap (pt : Z) (c : codec) (clock : Z) (ch : option Z) | Fmtp (pt : Z) (v : list fparam)
  | RtcpFb (pt : Z) (v : fb) | OtherAttr.
(** codec.rs:38-44 *)
Definition rtp_clock (s : spec) : Z := if codec_beq (s_codec s) G722 then 8000 else s_clock s.
(** data.rs:1109-1170 *)
Definition as_media_attrs (p : pp) : list attr :=
  let s := p_spec p in
  [RtpMap (p_pt p) (s_codec s) (rtp_clock s) (s_channels s)]
  ++ (if p_tcc p then [RtcpFb (p_pt p) Tcc] else []) ++ (if p_remb p then [RtcpFb (p_pt p) Remb] else [])
  ++ (if p_fir p then [RtcpFb (p_pt p) Fir] else []) ++ (if p_nack p then [RtcpFb (p_pt p) Nack] else [])
  ++ (if p_pli p then [RtcpFb (p_pt p) Pli] else [])
  ++ (match to_format_param (s_fmt s) with [] => [] | v => [Fmtp (p_pt p) v] end)
  ++ match p_resend p with
     | None => []
     | Some r => [RtpMap r Rtx (rtp_clock s) None; Fmtp r [Apt (p_pt p)]]
     end.
(** sdp.rs:1512-1524: the payload types of the m-line *)
Definition line_pts (ps : list pp) : list Z := flat_map own_pts ps.
(** codec_config.rs:564-585 *)
Definition static_spec (pt : Z) : option spec :=
  if pt =? 0 then Some (mkSpec PCMU 8000 None fmt0) else if pt =? 8 then Some (mkSpec PCMA 8000 None fmt0)
  else if pt =? 9 then Some (mkSpec G722 16000 None fmt0) else if pt =? 13 then Some (mkSpec CN 8000 None fmt0) else None.
(** data.rs:1179-1201 *)
Definition spec_of_map (c : codec) (clock : Z) (ch : option Z) : spec :=
  if codec_beq c G722 then mkSpec c 16000 (match ch with Some 1 => None | _ => ch end) fmt0
  else mkSpec c clock ch fmt0.
(** payload_params.rs:152-172 *)
Definition pp_new (pt : Z) (s : spec) : pp :=
  let v := is_video (s_codec s) in mkPp pt None s true v v v v false.
Definition map_of (a : attr) : option (Z * (codec * Z * option Z)) :=
  match a with RtpMap pt c k h => Some (pt, (c, k, h)) | _ => None end.
Definition fmtp_of (a : attr) : option (Z * list fparam) := match a with Fmtp pt v => Some (pt, v) | _ => None end.
Definition fb_of (a : attr) : option (Z * fb) := match a with RtcpFb pt v => Some (pt, v) | _ => None end.
(** data.rs:317-336 *)
Definition statics (pts : list Z) (maps : list (Z * (codec * Z * option Z))) : list (Z * (codec * Z * option Z)) :=
  fold_left (fun ms pt =>
    if existsb (fun m => fst m =? pt) ms then ms
    else match static_spec pt with
         | Some s => ms ++ [(pt, (s_codec s, rtp_clock s, s_channels s))]
         | None => ms end) pts maps.
(** data.rs:368-391: one fmtp line *)
Definition apply_fmtp (maps : list (Z * (codec * Z * option Z))) (p : pp) (l : Z * list fparam) : pp :=
  let (pt, vs) := l in
  let p := if pt =? p_pt p
           then set_spec p (mkSpec (s_codec (p_spec p)) (s_clock (p_spec p)) (s_channels (p_spec p)) (fold_left set_param vs (s_fmt (p_spec p))))
           else p in
  fold_left (fun p q => match q with
    | Apt v => if (v =? p_pt p) && existsb (fun m => (fst m =? pt) && codec_beq (fst (fst (snd m))) Rtx) maps
               then set_pts p (p_pt p) (Some pt) (p_locked p) else p
    | _ => p end) vs p.
(** data.rs:393-418: feedback can only be switched on *)
Definition apply_fb (p : pp) (l : Z * fb) : pp :=
  let (pt, v) := l in
  if pt =? p_pt p then
    match p with mkPp a b c t n pl fi re lk =>
    match v with
    | Remb => mkPp a b c t n pl fi true lk
    | Tcc => mkPp a b c true n pl fi re lk
    | Fir => mkPp a b c t n pl true re lk
    | Nack => mkPp a b c t true pl fi re lk
    | Pli => mkPp a b c t n true fi re lk
    | OtherFb => p
    end end
  else p.
(** data.rs:317-421 rtp_params *)
Definition rtp_params (pts : list Z) (attrs : list attr) : list pp :=
  let maps := statics pts (filter_map map_of attrs) in
  let fm := filter_map fmtp_of attrs in
  let fbs := filter_map fb_of attrs in
  map (fun m => match m with (pt, (c, k, h)) =>
        fold_left apply_fb fbs (fold_left (apply_fmtp maps) fm (pp_new pt (spec_of_map c k h))) end)
    (filter (fun m => let c := fst (fst (snd m)) in is_audio c || is_video c) maps).
(** What the other side reads (data.rs:317-421) when these parameters are written in an m-line (sdp.rs:1512-1524). *)
Definition wire (ps : list pp) : list pp := rtp_params (line_pts ps) (flat_map as_media_attrs ps).
(** sdp.rs:1170-1219 add_new_lines, one m-line after the other: update the configuration (1190-1192), then the
    payload types of the new media (update_media, 1329-1335).  Returns these too. *)
Fixpoint apply_lines (cfg : list pp) (lines : list (list pp * bool)) : res (list pp * list (list Z)) :=
  match lines with
  | [] => Ok (cfg, [])
  | (remote, rr) :: r =>
      do cfg <- update_params cfg remote rr;
      let pts := remote_pts cfg remote rr in
      do (cfg, l) <- apply_lines cfg r;
      Ok (cfg, pts :: l)
  end.
(** A new m-line in an offer: its kind, the payload types it lists, whether the offer (the answer) says that its
    sender wants to receive. *)
Record newline := mkLine { l_video : bool; l_list : list Z; l_orecv : bool; l_arecv : bool }.
(** One offer with new m-lines and its answer: apply_offer (sdp.rs:946-959), the answer (860-879), apply_answer
    (961-986).  Update_params is only called for new m-lines. *)
Definition exchange (a b : list pp) (lines : list newline) : res (list pp * list pp) :=
  do (b, ptss) <- apply_lines b (map (fun l => (wire (line_params a (l_video l) (l_list l)), l_orecv l)) lines);
  do (a, x) <- apply_lines a (map (fun lp => (wire (line_params b (l_video (fst lp)) (snd lp)), l_arecv (fst lp))) (combine lines ptss));
  Ok (a, b).
(** A history of exchanges, each offered by the first or the second peer. *)
Fixpoint exchanges (a b : list pp) (h : list (bool * list newline)) : res (list pp * list pp) :=
  match h with
  | [] => Ok (a, b)
  | (true, ls) :: r => do (a, b) <- exchange a b ls; exchanges a b r
  | (false, ls) :: r => do (b, a) <- exchange b a ls; exchanges a b r
  end.

(** codec_config.rs:101-134 add_config *)
Definition add_config (cfg : list pp) (pt : Z) (resend : option Z) (c : codec) (clock : Z) (ch : option Z) (f : fmt) : list pp :=
  let v := is_video c in cfg ++ [mkPp pt resend (mkSpec c clock ch f) true v v v v false].
(** codec_config.rs:136-146; the expect *)
Definition add_static (cfg : list pp) (pt : Z) : res (list pp) :=
  match static_spec pt with
  | None => Panic
  | Some s => Ok (add_config cfg pt None (s_codec s) (s_clock s) (s_channels s) (s_fmt s))
  end.
(** codec_config.rs:148-170 *)
Definition add_h264 (cfg : list pp) (pt : Z) (resend : option Z) (pm : bool) (plid : Z) : list pp :=
  add_config cfg pt resend H264 90000 None
    (mkFmt None None None None None (Some true) (Some (if pm then 1 else 0)) (Some plid) None None None None None None None).
(** codec_config.rs:172-198; the fallback is level 3.1 (h265_profile.rs:20-24) *)
Definition add_h265 (cfg : list pp) (pt : Z) (resend : option Z) (pid tier level : Z) : list pp :=
  add_config cfg pt resend H265 90000 None
    (mkFmt None None None None None None None None None None None None
       (Some (dflt (mkPtl 1 0 4) (h265_new pid tier level))) None None).
(** codec_config.rs:325-350 *)
Definition add_h266 (cfg : list pp) (pt : Z) (resend : option Z) (pid tier level : Z) : list pp :=
  add_config cfg pt resend H266 90000 None
    (mkFmt None None None None None None None None None None None None
       None (Some (dflt (mkPtl 1 0 4) (h266_new pid tier level))) None).
(** codec_config.rs:200-411: the public enable calls *)
Inductive enable := EnPcmu | EnPcma | EnG722 | EnCn | EnOpus | EnVp8 | EnH264 | EnH265 | EnH266 | EnVp9 | EnAv1.
Definition enable_codec (e : enable) : codec :=
  match e with EnPcmu => PCMU | EnPcma => PCMA | EnG722 => G722 | EnCn => CN | EnOpus => Opus | EnVp8 => Vp8
  | EnH264 => H264 | EnH265 => H265 | EnH266 => H266 | EnVp9 => Vp9 | EnAv1 => Av1 end.
Definition fmt_opus : fmt := mkFmt (Some 10) None None (Some true) None None None None None None None None None None None.
Definition fmt_pid (v : Z) : fmt := mkFmt None None None None None None None None (Some v) None None None None None None.
Definition do_enable (cfg : list pp) (e : enable) (on : bool) : res (list pp) :=
  let cfg := filter (fun p => negb (codec_beq (s_codec (p_spec p)) (enable_codec e))) cfg in
  if negb on then Ok cfg
  else match e with
  | EnPcmu => add_static cfg 0
  | EnPcma => add_static cfg 8
  | EnG722 => add_static cfg 9
  | EnCn => add_static cfg 13
  | EnOpus => Ok (add_config cfg 111 None Opus 48000 (Some 2) fmt_opus)
  | EnVp8 => Ok (add_config cfg 96 (Some 97) Vp8 90000 None fmt0)
  | EnH264 => Ok (fold_left (fun c '(pt, rtx, pm, plid) => add_h264 c pt (Some rtx) pm plid)
       [(127, 121, true, 4325407); (125, 107, false, 4325407); (108, 109, true, 4382751); (124, 120, false, 4382751);
        (123, 119, true, 5046303); (35, 36, false, 5046303); (114, 115, true, 6553631)] cfg)
  | EnH265 => Ok (add_h265 cfg 102 (Some 103) 1 0 180)
  | EnH266 => Ok (add_h266 cfg 104 (Some 105) 1 0 96)
  | EnVp9 => Ok (add_config (add_config cfg 98 (Some 99) Vp9 90000 None (fmt_pid 0)) 100 (Some 101) Vp9 90000 None (fmt_pid 2))
  | EnAv1 => Ok (add_config cfg 45 (Some 46) Av1 90000 None fmt0)
  end.
Fixpoint enables (cfg : list pp) (l : list (enable * bool)) : res (list pp) :=
  match l with [] => Ok cfg | (e, on) :: r => do cfg <- do_enable cfg e on; enables cfg r end.
(** codec_config.rs:78-91 *)
Definition new_with_defaults : res (list pp) :=
  enables [] [(EnOpus, true); (EnVp8, true); (EnH264, true); (EnH265, true); (EnH266, false); (EnVp9, true); (EnAv1, true)].

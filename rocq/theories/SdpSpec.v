(** What an SDP description is, independent of the parser: which values can be written on a line, and what the other
    side is expected to read. *)
From Coq Require Import String Ascii Permutation.
From Verif Require Import Base PayModel PrioModel TextModel SdpModel.

(** ** Pieces of text *)
(** the rest of a line; a word; letters and digits *)
Definition line_text (v : str) : Prop := v <> [] /\ Forall (fun c => c <> 13 /\ c <> 10) v.
Definition word (v : str) : Prop := v <> [] /\ Forall (fun c => c <> 32 /\ c <> 13 /\ c <> 10) v.
Definition plain (c : Z) : Prop := 48 <= c <= 57 \/ 65 <= c <= 90 \/ 97 <= c <= 122.
Definition mid_ok (m : str) : Prop := m <> [] /\ zlen m <= 16 /\ Forall (fun c => plain c \/ c = 95) m.
Definition rid_ok (r : str) : Prop := r <> [] /\ Forall plain r.
Definition u8 (v : Z) : Prop := 0 <= v <= 255.
Definition u16 (v : Z) : Prop := 0 <= v <= 65535.
Definition u32 (v : Z) : Prop := 0 <= v <= 4294967295.
Definition u64 (v : Z) : Prop := 0 <= v <= 18446744073709551615.
(** payload types are seven bits *)
Definition pt_ok (v : Z) : Prop := 0 <= v <= 127.
Definition starts (p s : str) : Prop := exists t, s = p ++ t.

(** ** What is assumed about the standard library: an address is printed as a word and read back, a hash is 64 bits,
    a map is iterated in some order. *)
Record env_ok (e : env) : Prop := {
  eo_ip : forall i, ip_read e (ip_show e i) = Some i;
  eo_word : forall i, ip_show e i <> [] /\ Forall (fun c => is_space c = false) (ip_show e i);
  eo_hash : forall k b r p, 0 <= fn_hash e k b r p;
  eo_shuf : forall l, Permutation l (shuf e l) }.

(** ** Candidates *)
Definition no_space (v : str) : Prop := v <> [] /\ Forall (fun c => is_space c = false) v.
Record cand_ok (c : candidate) : Prop := {
  co_found : forall f, cd_found c = Some f -> no_space f;
  co_comp : u16 (cd_comp c);
  co_prio : exists p, cand_prio c = Ok p /\ u32 p;
  co_port : u16 (cd_port c);
  co_raddr : forall i p, cd_raddr c = Some (i, p) -> u16 p;
  co_tcp : forall t, cd_tcp c = Some t -> (t <= 2)%nat;
  co_ufrag : forall u, cd_ufrag c = Some u -> no_space u }.
(** the remote sees foundation, component, protocol, priority, address, kind, related address, TCP role and ufrag; what is
    private to the owner (base, local address, preference) is filled in as for any remote candidate *)
Definition seen_as (e : env) (c c' : candidate) : Prop :=
  exists f p, foundation e c = Ok f /\ cand_prio c = Ok p /\
    cd_found c' = Some f /\ cd_prio c' = Some p /\ cd_comp c' = cd_comp c /\ cd_proto c' = cd_proto c /\
    cd_ip c' = cd_ip c /\ cd_port c' = cd_port c /\ cd_kind c' = cd_kind c /\ cd_raddr c' = cd_raddr c /\
    cd_tcp c' = cd_tcp c /\ cd_ufrag c' = cd_ufrag c /\
    cd_base c' = None /\ cd_lpref c' = None /\ cd_disc c' = false /\
    cd_local c' = (if ckind_eqb (cd_kind c) Host then (cd_ip c, cd_port c) else zero_like (cd_ip c)).

(** ** Format parameters *)
(** the key of a parameter *)
Definition fp_key (f : fparam) : nat :=
  match f with
  | MinPTime _ => 0 | Stereo _ => 1 | SpropStereo _ => 2 | UseInbandFec _ => 3 | UseDtx _ => 4 | LevelAsymmetryAllowed _ => 5
  | PacketizationMode _ => 6 | ProfileLevelId _ => 7 | ProfileId _ => 8 | Profile _ => 9 | LevelIdx _ => 10 | Tier _ => 11
  | FH265 _ => 12 | FH266 _ => 13 | SpropMaxDonDiff _ => 14 | Apt _ => 15 | FUnknown => 16
  end%nat.
(** a profile, tier and level of the tables (the level is its position) *)
Definition ptl_ok (profiles levels : list Z) (p : ptl) : Prop :=
  In (pl_profile p) profiles /\ (pl_tier p = 0 \/ pl_tier p = 1) /\ 0 <= pl_level p < zlen levels.
Definition fp_ok (f : fparam) : Prop :=
  match f with
  | MinPTime v | PacketizationMode v | Profile v | LevelIdx v | Tier v | Apt v => u8 v
  | ProfileLevelId v | ProfileId v => u32 v
  | FH265 p => ptl_ok h265_profiles h265_levels p
  | FH266 p => ptl_ok h266_profiles h266_levels p
  | SpropMaxDonDiff v => 0 <= v <= 32767
  | Stereo _ | SpropStereo _ | UseInbandFec _ | UseDtx _ | LevelAsymmetryAllowed _ => True
  | FUnknown => False
  end.
Definition is_ptl (f : fparam) : bool := match f with FH265 _ | FH266 _ => true | _ => false end.
(** one line of parameters: with profile, tier and level no key may occur twice, and it takes the key profile-id *)
Definition fmtp_ok (l : list fparam) : Prop :=
  Forall fp_ok l /\
  (existsb is_ptl l = false \/
   (NoDup (map fp_key l) /\ (forall v, ~ In (ProfileId v) l) /\ ~ (exists p q, In (FH265 p) l /\ In (FH266 q) l))).
(** the reader gets the same parameters; with profile, tier and level that comes first and the order of the others is
    unspecified *)
Definition fmtp_reads (l l' : list fparam) : Prop :=
  if existsb is_ptl l then exists p r, l' = p :: r /\ is_ptl p = true /\ Permutation l l' else l' = l.

(** ** Attributes *)
Definition fingerprint_ok (f : fingerprint) : Prop :=
  word (fg_func f) /\ fg_bytes f <> [] /\ Forall u8 (fg_bytes f).
Definition session_names : list str :=
  map T ["group:"; "msid-semantic:"; "ice-ufrag:"; "ice-pwd:"; "ice-options:"; "fingerprint:"; "setup:"; "candidate:"]%string.
Definition session_flags : list str := map T ["ice-lite"; "end-of-candidates"]%string.
Definition media_names : list str :=
  map T ["ice-ufrag:"; "ice-pwd:"; "ice-options:"; "fingerprint:"; "setup:"; "mid:"; "sctp-port:"; "max-message-size:";
         "sctp-init:"; "extmap:"; "msid:"; "rtcp:"; "candidate:"; "rtpmap:"; "rtcp-fb:"; "fmtp:"; "rid:"; "simulcast:";
         "ssrc-group:"; "ssrc:"]%string.
Definition media_flags : list str :=
  map T ["recvonly"; "sendrecv"; "sendonly"; "inactive"; "rtcp-mux"; "rtcp-mux-only"; "rtcp-rsize"; "end-of-candidates"]%string.
(** an attribute neither side knows *)
Definition unknown (names flags : list str) (v : str) : Prop :=
  line_text v /\ (forall n, In n names -> ~ starts n v) /\ ~ In v flags.

Definition sattr_ok (a : sattr) : Prop :=
  match a with
  | SGroup t m => word t /\ m <> [] /\ Forall mid_ok m
  | SMsidSemantic s l => word s /\ l <> [] /\ Forall word l
  | SAllowMixed | SIceLite | SEndOfCandidates | SSetup _ => True
  | SIceUfrag v | SIcePwd v | SIceOptions v => line_text v
  | SFingerprint f => fingerprint_ok f
  | SCandidate c => cand_ok c
  | SUnused v => unknown session_names session_flags v
  end.
(** every attribute is read as it was written; the parser has no case for extmap-allow-mixed *)
Definition sattr_reads (e : env) (a a' : sattr) : Prop :=
  match a with
  | SCandidate c => exists c', a' = SCandidate c' /\ seen_as e c c'
  | SAllowMixed => a' = SUnused (T "extmap-allow-mixed")
  | _ => a' = a
  end.

Definition ext_ok (x : extension) : Prop :=
  match x with ExtKnown i => (i < 14)%nat | ExtUnknown u => word u /\ ~ In u ext_uris end.
Definition layer_ok (l : layer) : Prop := rid_ok (ly_rid l) /\ ly_attrs l = None.
Definition key_ok (k : str) : Prop :=
  word k /\ Forall (fun c => c <> 61) k /\ (forall c t, k = c :: t -> is_space c = false).
Definition val_ok (v : str) : Prop := word v /\ Forall (fun c => c <> 59) v.
Definition mattr_ok (a : mattr) : Prop :=
  match a with
  | MRtcp v | MIceUfrag v | MIcePwd v | MIceOptions v | MSctpInit v => line_text v
  | MFingerprint f => fingerprint_ok f
  | MMid m => mid_ok m
  | MSctpPort v => u16 v
  | MMaxMessageSize v => u64 v
  | MExtMap id x => u8 id /\ ext_ok x
  | MSetup _ | MRecvOnly | MSendRecv | MSendOnly | MInactive | MRtcpMux | MRtcpMuxOnly | MRtcpRsize | MEndOfCandidates => True
  | MMsid s t => word s /\ line_text t
  | MCandidate c => cand_ok c
  | MRtpMap pt c k ch => pt_ok pt /\ c <> Null /\ 1 <= k <= 4294967295 /\ (forall n, ch = Some n -> u8 n)
  | MRtcpFb pt v => pt_ok pt /\ line_text v
  | MFmtp pt l => pt_ok pt /\ fmtp_ok l
  | MRid id active _ pts restr =>
      rid_ok id /\ active = true /\ pts = [] /\ Forall (fun kv => key_ok (fst kv) /\ val_ok (snd kv)) restr /\
      (forall k v r, restr = (k, v) :: r -> ~ starts (T "p") k)
  | MSimulcast s =>
      (sm_send s <> [] \/ sm_recv s <> []) /\ Forall layer_ok (sm_send s) /\ Forall layer_ok (sm_recv s)
  | MSsrcGroup s l => word s /\ l <> [] /\ Forall u32 l
  | MSsrc s a v => u32 s /\ a <> [] /\ Forall (fun c => c <> 58 /\ c <> 13 /\ c <> 10) a /\ line_text v
  | MUnused v => unknown media_names media_flags v
  end.
(** attributes that are not written at all: no parameters, a simulcast that was not in the received text *)
Definition silent (a : mattr) : bool :=
  match a with MFmtp _ [] => true | MSimulcast s => sm_munged s | _ => false end.
Definition mattr_reads (e : env) (a a' : mattr) : Prop :=
  match a with
  | MCandidate c => exists c', a' = MCandidate c' /\ seen_as e c c'
  | MFmtp pt l => exists l', a' = MFmtp pt l' /\ fmtp_reads l l'
  | _ => a' = a
  end.

(** ** Media descriptions *)
Definition bw_ok (b : option bandwidth) : Prop :=
  forall b', b = Some b' -> bw_typ b' <> [] /\ Forall (fun c => c <> 58 /\ c <> 13 /\ c <> 10) (bw_typ b') /\ line_text (bw_val b').
Definition mtype_ok (t : mtype) : Prop :=
  match t with
  | MTUnknown v => word v /\ ~ starts (T "audio") v /\ ~ starts (T "video") v /\ ~ starts (T "application") v
  | _ => True
  end.
(** how often an attribute of a kind occurs *)
Fixpoint occurs {A} (P : A -> Prop) (l : list A) (n : nat) : Prop :=
  match l with
  | [] => n = 0%nat
  | x :: r => (P x /\ exists k, n = S k /\ occurs P r k) \/ (~ P x /\ occurs P r n)
  end.
Definition a_mid (a : mattr) : Prop := exists m, a = MMid m.
Definition a_setup (a : mattr) : Prop := exists s, a = MSetup s.
Definition a_dir (a : mattr) : Prop := a = MSendRecv \/ a = MSendOnly \/ a = MRecvOnly \/ a = MInactive.
Definition a_map (pt : Z) (a : mattr) : Prop := exists c k ch, a = MRtpMap pt c k ch.
Definition static_pt (pt : Z) : Prop := In pt [0; 8; 9; 13].
(** what the rest of the code relies on: one mid, at most one setup; for RTP one direction and a payload type; each payload
    type described once, unless it is a static one that may be left out *)
Record consistent (m : mline) : Prop := {
  cs_mid : occurs a_mid (ml_attrs m) 1;
  cs_setup : exists n, occurs a_setup (ml_attrs m) n /\ (n <= 1)%nat;
  cs_dir : ml_proto m = Srtp -> occurs a_dir (ml_attrs m) 1;
  cs_pts : ml_proto m = Srtp -> ml_pts m <> [];
  cs_map : forall pt, In pt (ml_pts m) -> occurs (a_map pt) (ml_attrs m) 1 \/ (occurs (a_map pt) (ml_attrs m) 0 /\ static_pt pt) }.
Record mline_ok (m : mline) : Prop := {
  mo_typ : mtype_ok (ml_typ m);
  mo_pts : Forall u8 (ml_pts m);
  mo_app : ml_typ m = MTApp -> ml_pts m = [];
  mo_bw : bw_ok (ml_bw m);
  mo_attrs : Forall mattr_ok (ml_attrs m);
  mo_cons : consistent m }.
Record mline_reads (e : env) (m m' : mline) : Prop := {
  mr_typ : ml_typ m' = ml_typ m;
  mr_disabled : ml_disabled m' = ml_disabled m;
  mr_proto : ml_proto m' = ml_proto m;
  mr_pts : ml_pts m' = ml_pts m;
  mr_bw : ml_bw m' = ml_bw m;
  mr_attrs : Forall2 (mattr_reads e) (filter (fun a => negb (silent a)) (ml_attrs m)) (ml_attrs m') }.

Record sdp_ok (d : sdp) : Prop := {
  so_id : u64 (sd_id d);
  so_bw : bw_ok (sd_bw d);
  so_attrs : Forall sattr_ok (sd_attrs d);
  so_lines : Forall mline_ok (sd_lines d) }.
Record sdp_reads (e : env) (d d' : sdp) : Prop := {
  sr_id : sd_id d' = sd_id d;
  sr_bw : sd_bw d' = sd_bw d;
  sr_attrs : Forall2 (sattr_reads e) (sd_attrs d) (sd_attrs d');
  sr_lines : Forall2 (mline_reads e) (sd_lines d) (sd_lines d') }.

(** ** Codec parameters that can be written: what the fields of the source's types allow, plus: a codec with a name, and
    not two of the parameters that share the key profile-id *)
Definition opt_all {A} (P : A -> Prop) (o : option A) : Prop := match o with Some v => P v | None => True end.
Record wr_ok (p : pp) : Prop := {
  wr_pt : pt_ok (p_pt p);
  wr_resend : opt_all pt_ok (p_resend p);
  wr_codec : s_codec (p_spec p) <> Null;
  wr_clock : 1 <= s_clock (p_spec p) <= 4294967295;
  wr_channels : opt_all u8 (s_channels (p_spec p));
  wr_minptime : opt_all u8 (f_minptime (s_fmt (p_spec p)));
  wr_pmode : opt_all u8 (f_pmode (s_fmt (p_spec p)));
  wr_plid : opt_all u32 (f_plid (s_fmt (p_spec p)));
  wr_pid : opt_all u32 (f_pid (s_fmt (p_spec p)));
  wr_profile : opt_all u8 (f_profile (s_fmt (p_spec p)));
  wr_level_idx : opt_all u8 (f_level_idx (s_fmt (p_spec p)));
  wr_tier : opt_all u8 (f_tier (s_fmt (p_spec p)));
  wr_h265 : opt_all (ptl_ok h265_profiles h265_levels) (f_h265 (s_fmt (p_spec p)));
  wr_h266 : opt_all (ptl_ok h266_profiles h266_levels) (f_h266 (s_fmt (p_spec p)));
  wr_don : opt_all (fun v => 0 <= v <= 32767) (f_don (s_fmt (p_spec p)));
  wr_one : f_h265 (s_fmt (p_spec p)) = None /\ f_h266 (s_fmt (p_spec p)) = None \/
           f_pid (s_fmt (p_spec p)) = None /\ (f_h265 (s_fmt (p_spec p)) = None \/ f_h266 (s_fmt (p_spec p)) = None) }.
(** the attributes around the codecs: one mid, one direction, at most one setup, nothing about codecs *)
Definition codec_free (a : mattr) : Prop :=
  match a with MRtpMap _ _ _ _ | MFmtp _ _ | MRtcpFb _ _ => False | _ => True end.

(** ** What every description that was read satisfies: payload types are seven bits, a mid is a mid *)
Definition parsed_ok (a : mattr) : Prop :=
  match a with
  | MRtpMap pt _ _ _ | MRtcpFb pt _ | MFmtp pt _ => pt_ok pt
  | MRid _ _ _ pts _ => Forall pt_ok pts
  | MMid m => mid_ok m
  | _ => True
  end.

(** ** The media description of an offer: configured codecs, their attributes between others *)
Definition offered (m : mline) (ps : list pp) : Prop :=
  exists t dis bw pre post,
    m = mkM t dis Srtp (line_pts ps) bw (pre ++ map written (flat_map as_media_attrs ps) ++ post) /\
    mtype_ok t /\ t <> MTApp /\ bw_ok bw /\ ps <> [] /\ Forall wr_ok ps /\
    Forall mattr_ok (pre ++ post) /\ Forall codec_free (pre ++ post) /\
    occurs a_mid (pre ++ post) 1 /\ occurs a_dir (pre ++ post) 1 /\ (exists n, occurs a_setup (pre ++ post) n /\ (n <= 1)%nat).

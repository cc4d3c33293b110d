(** The SDP text: /repo/src/sdp/data.rs (Display of every part), /repo/src/sdp/parser.rs (the whole parser),
    /repo/crates/is/src/candidate.rs (to_sdp_string, from_parts), /repo/crates/is/src/parse.rs (the second parser of
    candidates), FormatParam (data.rs:992-1107), Mid (rtp/id.rs:8-70), Extension (rtp/ext.rs:170-265).

    Not modelled: error texts, logs, serde; [SocketAddr] is an address and a port (the flow label and scope of an IPv6
    socket address are not printed). *)
From Coq Require Import String Ascii.
From Verif Require Import Base PayModel PrioModel TextModel.

(** ** What comes from the standard library.
    The text of IP addresses (Display and FromStr of IpAddr), Unicode letters and digits beyond ASCII, the 64-bit hash
    of a foundation, and the iteration order of a HashMap are parameters. *)
Inductive ip := V4 (a : Z) | V6 (a : Z).

(** candidate.rs:18-102; [fn_hash] is the DefaultHasher value of (kind, base ip, raddr ip, proto) *)
Record candidate := mkC {
  cd_found : option str; cd_comp : Z; cd_proto : cproto; cd_prio : option Z; cd_ip : ip; cd_port : Z;
  cd_base : option (ip * Z); cd_kind : ckind; cd_raddr : option (ip * Z); cd_tcp : option nat; cd_ufrag : option str;
  cd_local : ip * Z; cd_lpref : option Z; cd_disc : bool }.

Record env := mkEnv {
  ip_show : ip -> str; ip_read : str -> option ip; uni_alnum : Z -> bool;
  fn_hash : ckind -> ip -> option ip -> cproto -> Z; shuf : list (str * str) -> list (str * str) }.

(** crypto/finger.rs:10-18 *)
Record fingerprint := mkFg { fg_func : str; fg_bytes : list Z }.
(** data.rs:784-790 *)
Inductive setup := SActPass | SActive | SPassive.
(** data.rs:141-146 *)
Record bandwidth := mkBw { bw_typ : str; bw_val : str }.
(** rtp/ext.rs:25-71: the known extensions by their position in EXT_URI, or an unknown URI *)
Inductive extension := ExtKnown (i : nat) | ExtUnknown (uri : str).
(** data.rs:718-743, 1216-1260 *)
Record layer := mkLayer { ly_rid : str; ly_active : bool; ly_attrs : option (list (str * str)) }.
Record simulcast := mkSim { sm_send : list layer; sm_recv : list layer; sm_munged : bool }.

(** data.rs:216-237 *)
Inductive sattr :=
  | SGroup (typ : str) (mids : list str) | SMsidSemantic (semantic : str) (ids : list str) | SAllowMixed | SIceLite
  | SIceUfrag (v : str) | SIcePwd (v : str) | SIceOptions (v : str) | SFingerprint (v : fingerprint) | SSetup (v : setup)
  | SCandidate (c : candidate) | SEndOfCandidates | SUnused (v : str).
(** data.rs:839-914 *)
Inductive mattr :=
  | MRtcp (v : str) | MIceUfrag (v : str) | MIcePwd (v : str) | MIceOptions (v : str) | MFingerprint (v : fingerprint)
  | MSetup (v : setup) | MMid (v : str) | MSctpPort (v : Z) | MMaxMessageSize (v : Z) | MSctpInit (v : str)
  | MExtMap (id : Z) (e : extension) | MRecvOnly | MSendRecv | MSendOnly | MInactive | MMsid (stream track : str)
  | MRtcpMux | MRtcpMuxOnly | MRtcpRsize | MCandidate (c : candidate) | MEndOfCandidates
  | MRtpMap (pt : Z) (c : codec) (clock : Z) (ch : option Z) | MRtcpFb (pt : Z) (v : str) | MFmtp (pt : Z) (v : list fparam)
  | MRid (id : str) (active : bool) (send : bool) (pts : list Z) (restr : list (str * str)) | MSimulcast (s : simulcast)
  | MSsrcGroup (sem : str) (ssrcs : list Z) | MSsrc (ssrc : Z) (attr value : str) | MUnused (v : str).
(** data.rs:745-773 *)
Inductive mtype := MTAudio | MTVideo | MTApp | MTUnknown (v : str).
Inductive proto := Srtp | Sctp.
(** data.rs:244-253 *)
Record mline := mkM { ml_typ : mtype; ml_disabled : bool; ml_proto : proto; ml_pts : list Z; ml_bw : option bandwidth;
  ml_attrs : list mattr }.
(** data.rs:23-27, 133-139 *)
Record sdp := mkS { sd_id : Z; sd_bw : option bandwidth; sd_attrs : list sattr; sd_lines : list mline }.

(** ** Writing *)
(** lib.rs:861 VERSION: the crate version (Cargo.toml:3) *)
Definition version : str := T "0.23.1".
Definition crlf : str := [13; 10].
Definition bdisp (b : bool) : str := if b then T "1" else T "0".

(** data.rs:1550-1564 FingerprintFmt: [len - 1] panics for no bytes *)
Definition hex2 (b : Z) : str := pad 2 (show_num true 16 b).
Definition show_bytes (b : list Z) : res str := match b with [] => Panic | _ => Ok (join (T ":") (map hex2 b)) end.
(** data.rs:806-813 setup_line *)
Definition show_setup (s : setup) : str :=
  match s with SActPass => T "actpass" | SActive => T "active" | SPassive => T "passive" end.
(** ext.rs:174-231 *)
Definition ext_uris : list str := [
  T "http://www.webrtc.org/experiments/rtp-hdrext/abs-send-time";
  T "http://www.webrtc.org/experiments/rtp-hdrext/abs-capture-time";
  T "urn:ietf:params:rtp-hdrext:ssrc-audio-level";
  T "urn:ietf:params:rtp-hdrext:toffset";
  T "urn:3gpp:video-orientation";
  T "http://www.ietf.org/id/draft-holmer-rmcat-transport-wide-cc-extensions-01";
  T "http://www.webrtc.org/experiments/rtp-hdrext/playout-delay";
  T "http://www.webrtc.org/experiments/rtp-hdrext/video-content-type";
  T "http://www.webrtc.org/experiments/rtp-hdrext/video-timing";
  T "urn:ietf:params:rtp-hdrext:sdes:rtp-stream-id";
  T "urn:ietf:params:rtp-hdrext:sdes:repaired-rtp-stream-id";
  T "urn:ietf:params:rtp-hdrext:sdes:mid";
  T "http://tools.ietf.org/html/draft-ietf-avtext-framemarking-07";
  T "http://www.webrtc.org/experiments/rtp-hdrext/color-space"].
(** ext.rs:253-265 as_uri *)
Definition show_ext (e : extension) : str :=
  match e with ExtKnown i => nth i ext_uris (T "unknown") | ExtUnknown u => u end.
(** codec.rs:126-145 Display *)
Definition show_codec (c : codec) : str :=
  match c with
  | Opus => T "opus" | PCMU => T "PCMU" | PCMA => T "PCMA" | G722 => T "G722" | CN => T "CN" | H264 => T "H264"
  | H265 => T "H265" | H266 => T "H266" | Vp8 => T "VP8" | Vp9 => T "VP9" | Av1 => T "AV1" | Rtx => T "rtx"
  | Null => T "null" | Unknown => T "unknown"
  end.
(** data.rs:1066-1107 Display of FormatParam *)
Definition show_ptl (levels : list Z) (p : ptl) : str :=
  T "profile-id=" ++ dec (pl_profile p) ++ T ";tier-flag=" ++ dec (pl_tier p) ++ T ";level-id=" ++ dec (level_id levels (pl_level p)).
Definition show_fparam (f : fparam) : str :=
  match f with
  | MinPTime v => T "minptime=" ++ dec v
  | UseInbandFec v => T "useinbandfec=" ++ bdisp v
  | UseDtx v => T "usedtx=" ++ bdisp v
  | Stereo v => T "stereo=" ++ bdisp v
  | SpropStereo v => T "sprop-stereo=" ++ bdisp v
  | LevelAsymmetryAllowed v => T "level-asymmetry-allowed=" ++ bdisp v
  | PacketizationMode v => T "packetization-mode=" ++ dec v
  | ProfileLevelId v => T "profile-level-id=" ++ pad 6 (show_num false 16 v)
  | ProfileId v => T "profile-id=" ++ dec v
  | Profile v => T "profile=" ++ dec v
  | LevelIdx v => T "level-idx=" ++ dec v
  | Tier v => T "tier=" ++ dec v
  | FH265 p => show_ptl h265_levels p
  | FH266 p => show_ptl h266_levels p
  | SpropMaxDonDiff v => T "sprop-max-don-diff=" ++ dec v
  | Apt v => T "apt=" ++ dec v
  | FUnknown => []
  end.

(** net.rs:101-116, candidate.rs:616-626, net.rs:50-59 *)
Definition show_proto (p : cproto) : str :=
  match p with Udp => T "udp" | Tcp => T "tcp" | SslTcp => T "ssltcp" | Tls => T "tls" end.
Definition show_kind (k : ckind) : str :=
  match k with Host => T "host" | PeerReflexive => T "prflx" | ServerReflexive => T "srflx" | Relayed => T "relay" end.
Definition show_tcp (t : nat) : str := match t with O => T "active" | S O => T "passive" | _ => T "so" end.

Definition is_v6 (i : ip) : bool := match i with V6 _ => true | V4 _ => false end.
(** candidate.rs:434-436 prio *)
Definition cand_prio (c : candidate) : res Z :=
  prio (mkCand (cd_prio c) (cd_kind c) (cd_proto c) (cd_lpref c) (cd_comp c) (is_v6 (cd_ip c)) (is_v6 (fst (cd_local c)))).
(** u32::to_be on a little endian machine *)
Definition swap32 (v : Z) : Z :=
  (v mod 256) * 16777216 + (v / 256 mod 256) * 65536 + (v / 65536 mod 256) * 256 + (v / 16777216 mod 256).
(** candidate.rs:399-428 foundation *)
Definition foundation (e : env) (c : candidate) : res str :=
  match cd_found c with
  | Some v => Ok v
  | None =>
      let base := match cd_base c with Some (i, _) => i | None => cd_ip c end in
      let h := fn_hash e (cd_kind c) base (option_map fst (cd_raddr c)) (cd_proto c) in
      do p <- cand_prio c;
      Ok (pad 8 (show_num false 16 (swap32 p)) ++ show_num false 16 h)
  end.
(** candidate.rs:565-588 to_sdp_string *)
Definition show_cand (e : env) (c : candidate) : res str :=
  do f <- foundation e c;
  do p <- cand_prio c;
  Ok (T "candidate:" ++ f ++ T " " ++ dec (cd_comp c) ++ T " " ++ show_proto (cd_proto c) ++ T " " ++ dec p ++ T " "
      ++ ip_show e (cd_ip c) ++ T " " ++ dec (cd_port c) ++ T " typ " ++ show_kind (cd_kind c)
      ++ (match cd_raddr c with Some (i, p) => T " raddr " ++ ip_show e i ++ T " rport " ++ dec p | None => [] end)
      ++ (match cd_tcp c with Some t => T " tcptype " ++ show_tcp t | None => [] end)
      ++ (match cd_ufrag c with Some u => T " ufrag " ++ u | None => [] end)).

(** data.rs:1315-1354 *)
Definition show_sattr (e : env) (a : sattr) : res str :=
  match a with
  | SGroup typ mids => Ok (T "a=group:" ++ typ ++ T " " ++ join (T " ") mids ++ crlf)
  | SAllowMixed => Ok (T "a=extmap-allow-mixed" ++ crlf)
  | SMsidSemantic s ids => Ok (T "a=msid-semantic: " ++ s ++ T " " ++ join (T " ") ids ++ crlf)
  | SIceLite => Ok (T "a=ice-lite" ++ crlf)
  | SIceUfrag v => Ok (T "a=ice-ufrag:" ++ v ++ crlf)
  | SIcePwd v => Ok (T "a=ice-pwd:" ++ v ++ crlf)
  | SIceOptions v => Ok (T "a=ice-options:" ++ v ++ crlf)
  | SFingerprint v => do b <- show_bytes (fg_bytes v); Ok (T "a=fingerprint:" ++ fg_func v ++ T " " ++ b ++ crlf)
  | SSetup v => Ok (T "a=setup:" ++ show_setup v ++ crlf)
  | SCandidate c => do s <- show_cand e c; Ok (T "a=" ++ s ++ crlf)
  | SEndOfCandidates => Ok (T "a=end-of-candidates" ++ crlf)
  | SUnused v => Ok (T "a=" ++ v ++ crlf)
  end.

(** data.rs:734-736, 1276-1287 *)
Definition show_layer (l : layer) : str := (if ly_active l then [] else T "~") ++ ly_rid l.
Definition show_layers (l : list layer) : str := join (T ";") (map show_layer l).
Definition is_nil {A} (l : list A) : bool := match l with [] => true | _ => false end.
Definition show_kv (kv : str * str) : str := fst kv ++ T "=" ++ snd kv.

(** data.rs:1401-1548 *)
Definition show_mattr (e : env) (a : mattr) : res str :=
  match a with
  | MRtcp v => Ok (T "a=rtcp:" ++ v ++ crlf)
  | MIceUfrag v => Ok (T "a=ice-ufrag:" ++ v ++ crlf)
  | MIcePwd v => Ok (T "a=ice-pwd:" ++ v ++ crlf)
  | MIceOptions v => Ok (T "a=ice-options:" ++ v ++ crlf)
  | MFingerprint v => do b <- show_bytes (fg_bytes v); Ok (T "a=fingerprint:" ++ fg_func v ++ T " " ++ b ++ crlf)
  | MSetup v => Ok (T "a=setup:" ++ show_setup v ++ crlf)
  | MMid v => Ok (T "a=mid:" ++ v ++ crlf)
  | MSctpPort v => Ok (T "a=sctp-port:" ++ dec v ++ crlf)
  | MMaxMessageSize v => Ok (T "a=max-message-size:" ++ dec v ++ crlf)
  | MSctpInit v => Ok (T "a=sctp-init:" ++ v ++ crlf)
  | MExtMap id x => Ok (T "a=extmap:" ++ dec id ++ T " " ++ show_ext x ++ crlf)
  | MRecvOnly => Ok (T "a=recvonly" ++ crlf)
  | MSendRecv => Ok (T "a=sendrecv" ++ crlf)
  | MSendOnly => Ok (T "a=sendonly" ++ crlf)
  | MInactive => Ok (T "a=inactive" ++ crlf)
  | MMsid s t => Ok (T "a=msid:" ++ s ++ T " " ++ t ++ crlf)
  | MRtcpMux => Ok (T "a=rtcp-mux" ++ crlf)
  | MRtcpMuxOnly => Ok (T "a=rtcp-mux-only" ++ crlf)
  | MRtcpRsize => Ok (T "a=rtcp-rsize" ++ crlf)
  | MCandidate c => do s <- show_cand e c; Ok (T "a=" ++ s ++ crlf)
  | MEndOfCandidates => Ok (T "a=end-of-candidates" ++ crlf)
  | MRtpMap pt c k ch =>
      Ok (T "a=rtpmap:" ++ dec pt ++ T " " ++ show_codec c ++ T "/" ++ dec k
          ++ (match ch with Some n => T "/" ++ dec n | None => [] end) ++ crlf)
  | MRtcpFb pt v => Ok (T "a=rtcp-fb:" ++ dec pt ++ T " " ++ v ++ crlf)
  | MFmtp pt [] => Ok []
  | MFmtp pt v => Ok (T "a=fmtp:" ++ dec pt ++ T " " ++ join (T ";") (map show_fparam v) ++ crlf)
  | MRid id _ send pts restr =>
      Ok (T "a=rid:" ++ id ++ T " " ++ (if send then T "send" else T "recv")
          ++ (if is_nil pts then [] else T " pt=" ++ join (T ",") (map dec pts))
          ++ (if is_nil restr then [] else (if is_nil pts then T " " else T ";") ++ join (T ";") (map show_kv restr))
          ++ crlf)
  | MSimulcast s =>
      if is_nil (sm_send s) && is_nil (sm_recv s) then Panic
      else if sm_munged s then Ok []
      else Ok (T "a=simulcast:" ++ (if is_nil (sm_send s) then [] else T "send " ++ show_layers (sm_send s))
               ++ (if is_nil (sm_recv s) then []
                   else (if is_nil (sm_send s) then [] else T " ") ++ T "recv " ++ show_layers (sm_recv s)) ++ crlf)
  | MSsrcGroup sem l => Ok (T "a=ssrc-group:" ++ sem ++ T " " ++ join (T " ") (map dec l) ++ (if is_nil l then [] else crlf))
  | MSsrc ssrc a v => Ok (T "a=ssrc:" ++ dec ssrc ++ T " " ++ a ++ T ":" ++ v ++ crlf)
  | MUnused v => Ok (T "a=" ++ v ++ crlf)
  end.

Fixpoint concat_res {A} (f : A -> res str) (l : list A) : res str :=
  match l with [] => Ok [] | x :: r => do a <- f x; do b <- concat_res f r; Ok (a ++ b) end.

(** data.rs:1384-1399, 775-782 *)
Definition show_mtype (t : mtype) : str :=
  match t with MTAudio => T "audio" | MTVideo => T "video" | MTApp => T "application" | MTUnknown v => v end.
Definition show_mproto (p : proto) : str := match p with Srtp => T "UDP/TLS/RTP/SAVPF" | Sctp => T "UDP/DTLS/SCTP" end.
Definition show_bw (b : option bandwidth) : str :=
  match b with Some b => T "b=" ++ bw_typ b ++ T ":" ++ bw_val b ++ crlf | None => [] end.
Definition is_app (t : mtype) : bool := match t with MTApp => true | _ => false end.
(** data.rs:1356-1382 *)
Definition show_mline (e : env) (m : mline) : res str :=
  do a <- concat_res (show_mattr e) (ml_attrs m);
  Ok (T "m=" ++ show_mtype (ml_typ m) ++ T " " ++ (if ml_disabled m then T "0" else T "9") ++ T " "
      ++ show_mproto (ml_proto m) ++ T " "
      ++ (if is_app (ml_typ m) then T "webrtc-datachannel" else join (T " ") (map dec (ml_pts m))) ++ crlf
      ++ T "c=IN IP4 0.0.0.0" ++ crlf ++ show_bw (ml_bw m) ++ a).
(** data.rs:1289-1313 *)
Definition show_sdp (e : env) (d : sdp) : res str :=
  do a <- concat_res (show_sattr e) (sd_attrs d);
  do m <- concat_res (show_mline e) (sd_lines d);
  Ok (T "v=0" ++ crlf ++ T "o=str0m-" ++ version ++ T " " ++ dec (sd_id d) ++ T " 2 IN IP4 0.0.0.0" ++ crlf
      ++ T "s=-" ++ crlf ++ show_bw (sd_bw d) ++ T "t=0 0" ++ crlf ++ a ++ m).

(** ** Reading *)
(** parser.rs:820-845 *)
Definition is_alnum (e : env) (c : Z) : bool := ascii_alnum c || ((128 <=? c) && uni_alnum e c).
Definition not_eol (c : Z) : bool := negb ((c =? 13) || (c =? 10)).
Definition not_spc (c : Z) : bool := negb (c =? 32) && not_eol c.
Definition name (e : env) : parser str := take1 (is_alnum e).
Definition not_sp : parser str := take1 not_spc.
Definition any_value : parser str := take1 not_eol.
(** parser.rs:847-854 line_end; crlf() consumes a lone carriage return before it fails *)
Definition line_end : parser unit :=
  choice [pmap (fun _ => tt) (pdo _c <- token 13; token 10); pmap (fun _ => tt) (token 10); eof].
(** parser.rs:797-818 *)
Definition pline {A} (typ : parser Z) (val : parser A) : parser A :=
  attempt (pdo _t <- typ; pdo _e <- token 61; pdo v <- val; pdo _l <- line_end; ret v).
Definition typed_line {A} (c : Z) (val : parser A) : parser A := pline (token c) val.
(** parser.rs:90-110 *)
Definition attribute_line {A} (n : str) (val : parser A) : parser A :=
  typed_line 97 (pdo _n <- lit n; pdo _c <- token 58; val).
Definition attribute_flag (n : str) : parser unit := typed_line 97 (lit n).
(** parser.rs:856-869 key_val: spaces() also skips line ends *)
Definition key_val : parser (str * str) :=
  pdo _s <- optional (skip is_space);
  pdo k <- take1 (fun c => negb (c =? 61) && not_spc c);
  pdo _e <- token 61;
  pdo v <- take1 (fun c => negb (c =? 59) && not_spc c);
  ret (k, v).

(** rtp/id.rs:49-69: characters that are not ASCII letters or digits become '_', 16 characters are kept *)
Definition mid_from (s : str) : str := firstn 16 (map (fun c => if ascii_alnum c then c else 95) s).

(** parser.rs:456-463, 163-170 *)
Definition p_hex_byte : parser Z :=
  pand (pdo a <- satisfy (fun c => is_some (digit_val 16 c)); pdo b <- satisfy (fun c => is_some (digit_val 16 c)); ret [a; b])
       (read_num 16 255).
Definition p_finger : parser fingerprint :=
  attribute_line (T "fingerprint") (pdo f <- not_sp; pdo _s <- token 32; pdo b <- sep_by1 p_hex_byte (token 58); ret (mkFg f b)).
(** parser.rs:465-472 *)
Definition p_setup : parser setup :=
  attribute_line (T "setup") (choice [attempt (pmap (fun _ => SActPass) (lit (T "actpass")));
    attempt (pmap (fun _ => SActive) (lit (T "active"))); attempt (pmap (fun _ => SPassive) (lit (T "passive")))]).

(** net.rs:85-99, 72-83 *)
Definition read_proto (s : str) : option cproto :=
  let s := lower s in
  if seqb s (T "udp") then Some Udp else if seqb s (T "tcp") then Some Tcp
  else if seqb s (T "ssltcp") then Some SslTcp else if seqb s (T "tls") then Some Tls else None.
Definition read_tcp (s : str) : option nat :=
  let s := lower s in
  if seqb s (T "active") then Some 0%nat else if seqb s (T "passive") then Some 1%nat
  else if seqb s (T "so") then Some 2%nat else None.
(** candidate.rs:197-226, 367-373 *)
Definition zero_like (i : ip) : ip * Z := (match i with V4 _ => V4 0 | V6 _ => V6 0 end, 0).
Definition from_parts (f : str) (comp : Z) (pr : cproto) (prio : Z) (i : ip) (port : Z) (k : ckind)
    (raddr : option (ip * Z)) (tcp : option nat) (ufrag : option str) : candidate :=
  mkC (Some f) comp pr (Some prio) i port None k raddr tcp ufrag
      (match k with Host => (i, port) | _ => zero_like i end) None false.
(** parser.rs:207-316 *)
Definition p_kind : parser ckind :=
  choice [pmap (fun _ => Host) (lit (T "host")); pmap (fun _ => PeerReflexive) (lit (T "prflx"));
          pmap (fun _ => ServerReflexive) (lit (T "srflx")); pmap (fun _ => Relayed) (lit (T "relay"))].
Definition p_cand (e : env) : parser candidate :=
  pdo _p <- lit (T "candidate:");
  pdo f <- not_sp; pdo _s <- token 32;
  pdo comp <- pand not_sp read_u16; pdo _s <- token 32;
  pdo pr <- pand not_sp read_proto; pdo _s <- token 32;
  pdo prio <- pand not_sp read_u32; pdo _s <- token 32;
  pdo i <- pand not_sp (ip_read e); pdo _s <- token 32;
  pdo port <- pand not_sp read_u16;
  pdo _t <- lit (T " typ ");
  pdo k <- p_kind;
  pdo ra <- optional (pdo _a <- attempt (lit (T " raddr ")); pdo i <- pand not_sp (ip_read e);
                      pdo _b <- lit (T " rport "); pdo p <- pand not_sp read_u16; ret (i, p));
  pdo tcp <- optional (pdo _a <- attempt (lit (T " tcptype ")); pand not_sp read_tcp);
  pdo _g <- optional (pdo _a <- attempt (lit (T " generation ")); not_sp);
  pdo _i <- optional (pdo _a <- attempt (lit (T " network-id ")); not_sp);
  pdo uf <- optional (pdo _a <- attempt (lit (T " ufrag ")); not_sp);
  pdo _c <- optional (pdo _a <- attempt (lit (T " network-cost ")); not_sp);
  ret (from_parts f comp pr prio i port k ra tcp uf).
(** parser.rs:318-325 *)
Definition p_cand_attr (e : env) : parser candidate :=
  pdo _a <- lit (T "a="); pdo c <- p_cand e; pdo _l <- line_end; ret c.

(** parser.rs:80-88 *)
Definition p_bw : parser bandwidth :=
  typed_line 98 (pdo t <- take1 (fun c => negb (c =? 58)); pdo _c <- token 58; pdo v <- any_value; ret (mkBw t v)).
(** parser.rs:59-78 *)
Definition p_origin : parser Z :=
  pand (typed_line 111 (pdo _u <- not_sp; pdo _s <- token 32; pdo n <- take1 is_digit; pdo _s <- token 32; pdo _v <- any_value; ret n))
       read_u64.
(** parser.rs:112-205 *)
Definition session_alts (e : env) : list (parser sattr) := [
  attempt (attribute_line (T "group") (pdo t <- not_sp; pdo _s <- token 32; pdo m <- sep_by1 (pmap mid_from not_sp) (token 32); ret (SGroup t m)));
  attempt (attribute_line (T "msid-semantic") (pdo _o <- optional (token 32); pdo s <- not_sp; pdo _s <- token 32; pdo l <- sep_by1 not_sp (token 32); ret (SMsidSemantic s l)));
  attempt (pmap (fun _ => SIceLite) (attribute_flag (T "ice-lite")));
  attempt (pmap SIceUfrag (attribute_line (T "ice-ufrag") any_value));
  attempt (pmap SIcePwd (attribute_line (T "ice-pwd") any_value));
  attempt (pmap SIceOptions (attribute_line (T "ice-options") any_value));
  attempt (pmap SFingerprint p_finger);
  attempt (pmap SSetup p_setup);
  attempt (pmap SCandidate (p_cand_attr e));
  attempt (pmap (fun _ => SEndOfCandidates) (attribute_flag (T "end-of-candidates")));
  pmap SUnused (typed_line 97 any_value)].
Definition p_sattr (e : env) : parser sattr := choice (session_alts e).
(** parser.rs:327-344 *)
Definition p_ignored : parser unit :=
  pmap (fun _ => tt) (pline (choice (map token [105; 117; 101; 112; 99; 122; 107])) any_value).

(** ext.rs:237-245 from_sdp_uri *)
Fixpoint find_uri (u : str) (l : list str) (i : nat) : option nat :=
  match l with [] => None | x :: r => if seqb x u then Some i else find_uri u r (S i) end.
Definition ext_from (u : str) : extension :=
  match find_uri u ext_uris 0 with Some i => ExtKnown i | None => ExtUnknown u end.
(** codec.rs:106-124 *)
Definition codec_from (s : str) : codec :=
  let s := lower s in
  if seqb s (T "opus") then Opus else if seqb s (T "pcmu") then PCMU else if seqb s (T "pcma") then PCMA
  else if seqb s (T "g722") then G722 else if seqb s (T "cn") then CN else if seqb s (T "h264") then H264
  else if seqb s (T "h265") then H265 else if seqb s (T "h266") then H266 else if seqb s (T "vp8") then Vp8
  else if seqb s (T "vp9") then Vp9 else if seqb s (T "av1") then Av1 else if seqb s (T "rtx") then Rtx else Unknown.
(** mtime.rs:118-124: NonZeroU32 *)
Definition read_freq (s : str) : option Z := match read_u32 s with Some 0 => None | r => r end.
(** parser.rs:548-562 *)
Definition p_ptype : parser Z := pand not_sp (fun s => match read_u8 s with Some v => if 127 <? v then None else Some v | None => None end).

(** data.rs:993-1023 *)
Definition fp_opt {A} (f : A -> fparam) (v : option A) : fparam := match v with Some v => f v | None => FUnknown end.
Definition fp_parse (k v : str) : fparam :=
  if seqb k (T "minptime") then fp_opt MinPTime (read_u8 v)
  else if seqb k (T "useinbandfec") then UseInbandFec (seqb v (T "1"))
  else if seqb k (T "usedtx") then UseDtx (seqb v (T "1"))
  else if seqb k (T "stereo") then Stereo (seqb v (T "1"))
  else if seqb k (T "sprop-stereo") then SpropStereo (seqb v (T "1"))
  else if seqb k (T "level-asymmetry-allowed") then LevelAsymmetryAllowed (seqb v (T "1"))
  else if seqb k (T "packetization-mode") then fp_opt PacketizationMode (read_u8 v)
  else if seqb k (T "profile-level-id") then
    fp_opt ProfileLevelId (match read_num 16 4294967295 v with Some x => Some x | None => read_u32 v end)
  else if seqb k (T "profile-id") then fp_opt ProfileId (read_u32 v)
  else if seqb k (T "profile") then fp_opt Profile (read_u8 v)
  else if seqb k (T "level-idx") then fp_opt LevelIdx (read_u8 v)
  else if seqb k (T "tier") then fp_opt Tier (read_u8 v)
  else if seqb k (T "sprop-max-don-diff") then
    fp_opt SpropMaxDonDiff (match read_u16 v with Some x => if x <=? 32767 then Some x else None | None => None end)
  else if seqb k (T "apt") then fp_opt Apt (read_u8 v)
  else FUnknown.
(** collecting into a HashMap: the last value of a key counts; the order of the keys is [shuf] *)
Fixpoint last_wins (l : list (str * str)) : list (str * str) :=
  match l with
  | [] => []
  | kv :: r => if existsb (fun kv' => seqb (fst kv) (fst kv')) r then last_wins r else kv :: last_wins r
  end.
Fixpoint lookup (k : str) (l : list (str * str)) : option str :=
  match l with [] => None | (k', v) :: r => if seqb k k' then Some v else lookup k r end.
(** h265_profile.rs:45-51, h266_profile.rs:51-57 from_fmtp *)
Definition ptl_from (mk : Z -> Z -> Z -> option ptl) (l : list (str * str)) : option ptl :=
  match lookup (T "profile-id") l with None => None | Some p =>
  match read_u8 p with None => None | Some p =>
  match lookup (T "tier-flag") l with None => None | Some t =>
  match read_u8 t with None => None | Some t =>
  match lookup (T "level-id") l with None => None | Some v =>
  match read_u8 v with None => None | Some v => mk p t v
  end end end end end end.
(** data.rs:1025-1063 *)
Definition parse_pairs (e : env) (l : list (str * str)) : list fparam :=
  if existsb (fun kv => seqb (fst kv) (T "tier-flag") || seqb (fst kv) (T "level-id")) l then
    let m := last_wins l in
    (match ptl_from h265_new m with
     | Some p => [FH265 p]
     | None => match ptl_from h266_new m with Some p => [FH266 p] | None => [] end
     end)
    ++ map (fun kv => fp_parse (fst kv) (snd kv))
         (filter (fun kv => negb (seqb (fst kv) (T "profile-id")) && negb (seqb (fst kv) (T "tier-flag"))
                            && negb (seqb (fst kv) (T "level-id"))) (shuf e m))
  else map (fun kv => fp_parse (fst kv) (snd kv)) l.

Definition not_slash (c : Z) : bool := negb (c =? 47) && not_eol c.
(** parser.rs:564-595 *)
Definition p_rtpmap : parser mattr :=
  attribute_line (T "rtpmap") (pdo pt <- p_ptype; pdo _s <- token 32; pdo c <- take1 not_slash; pdo _d <- token 47;
    pdo k <- pand (take1 not_slash) read_freq; pdo ch <- optional (pdo _d <- token 47; pand any_value read_u8);
    ret (MRtpMap pt (codec_from c) k ch)).
(** parser.rs:604-619 *)
Definition p_fmtp (e : env) : parser mattr :=
  choice [
    attempt (attribute_line (T "fmtp") (pdo pt <- p_ptype; pdo _s <- token 32; pdo l <- sep_by1 key_val (token 59); ret (MFmtp pt (parse_pairs e l))));
    attempt (attribute_line (T "fmtp") (pdo pt <- p_ptype; pdo _s <- token 32; pdo _v <- not_sp; ret (MFmtp pt [FUnknown])))].
(** parser.rs:621-658 *)
Definition p_rid (e : env) : parser mattr :=
  attribute_line (T "rid")
    (pdo id <- name e; pdo _s <- token 32;
     pdo d <- choice [pmap (fun _ => true) (lit (T "send")); pmap (fun _ => false) (lit (T "recv"))];
     pdo x <- optional (pdo _s <- token 32;
        pdo ps <- optional (pdo _p <- lit (T "pt="); pdo l <- sep_by1 p_ptype (token 44); pdo _o <- optional (token 59); ret l);
        pdo rs <- sep_by key_val (token 59); ret (ps, rs));
     ret (match x with
          | Some (ps, rs) => MRid id true d (match ps with Some l => l | None => [] end) rs
          | None => MRid id true d [] []
          end)).
(** parser.rs:660-674 *)
Definition p_simul1 (e : env) (d : str) : parser (list (list (str * bool))) :=
  pdo _d <- lit d; pdo _s <- token 32;
  sep_by1 (sep_by1 (pdo t <- optional (token 126); pdo n <- name e; ret (n, negb (is_some t))) (token 44)) (token 59).
(** parser.rs:687-700 to_simul: the first alternative of each group *)
Definition to_simul (l : list (list (str * bool))) : list layer :=
  filter_map (fun g => match g with (n, a) :: _ => Some (mkLayer n a None) | [] => None end) l.
(** parser.rs:676-718 *)
Definition p_simulcast (e : env) : parser mattr :=
  attribute_line (T "simulcast")
    (choice [
      (pdo a <- p_simul1 e (T "send"); pdo b <- optional (pdo _s <- token 32; p_simul1 e (T "recv"));
       ret (MSimulcast (mkSim (to_simul a) (match b with Some b => to_simul b | None => [] end) false)));
      (pdo a <- p_simul1 e (T "recv"); pdo b <- optional (pdo _s <- token 32; p_simul1 e (T "send"));
       ret (MSimulcast (mkSim (match b with Some b => to_simul b | None => [] end) (to_simul a) false)))]).

(** parser.rs:434-793 *)
Definition media_alts1 (e : env) : list (parser mattr) := [
  attempt (pmap MIceUfrag (attribute_line (T "ice-ufrag") any_value));
  attempt (pmap MIcePwd (attribute_line (T "ice-pwd") any_value));
  attempt (pmap MIceOptions (attribute_line (T "ice-options") any_value));
  attempt (pmap MFingerprint p_finger);
  attempt (pmap MSetup p_setup);
  attempt (pmap (fun m => MMid (mid_from m)) (attribute_line (T "mid") any_value));
  attempt (pmap MSctpPort (attribute_line (T "sctp-port") (pand not_sp read_u16)));
  attempt (pmap MMaxMessageSize (attribute_line (T "max-message-size") (pand not_sp read_u64)));
  attempt (pmap MSctpInit (attribute_line (T "sctp-init") any_value));
  attempt (attribute_line (T "extmap")
    (pdo id <- pand (take1 (fun c => negb (c =? 47) && negb (c =? 32))) read_u8;
     pdo _d <- optional (pdo _s <- token 47; not_sp);
     pdo _s <- token 32; pdo u <- not_sp; pdo _x <- optional (pdo _s <- token 32; any_value); ret (MExtMap id (ext_from u))));
  attempt (choice [
    attempt (pmap (fun _ => MRecvOnly) (attribute_flag (T "recvonly")));
    attempt (pmap (fun _ => MSendRecv) (attribute_flag (T "sendrecv")));
    attempt (pmap (fun _ => MSendOnly) (attribute_flag (T "sendonly")));
    attempt (pmap (fun _ => MInactive) (attribute_flag (T "inactive")))]);
  attempt (attribute_line (T "msid") (pdo s <- not_sp; pdo _s <- token 32; pdo t <- any_value; ret (MMsid s t)));
  attempt (pmap MRtcp (attribute_line (T "rtcp") any_value))].
Definition media_alts2 (e : env) : list (parser mattr) := [
  attempt (pmap (fun _ => MRtcpMux) (attribute_flag (T "rtcp-mux")));
  attempt (pmap (fun _ => MRtcpMuxOnly) (attribute_flag (T "rtcp-mux-only")));
  attempt (pmap (fun _ => MRtcpRsize) (attribute_flag (T "rtcp-rsize")));
  attempt (pmap MCandidate (p_cand_attr e));
  attempt (pmap (fun _ => MEndOfCandidates) (attribute_flag (T "end-of-candidates")));
  attempt p_rtpmap;
  attempt (attribute_line (T "rtcp-fb") (pdo pt <- p_ptype; pdo _s <- token 32; pdo v <- any_value; ret (MRtcpFb pt v)));
  attempt (p_fmtp e);
  attempt (p_rid e);
  attempt (p_simulcast e);
  attempt (attribute_line (T "ssrc-group") (pdo s <- not_sp; pdo _s <- token 32; pdo l <- sep_by1 (pand not_sp read_u32) (token 32); ret (MSsrcGroup s l)));
  attempt (attribute_line (T "ssrc") (pdo s <- pand not_sp read_u32; pdo _s <- token 32; pdo a <- take1 (fun c => negb (c =? 58)); pdo _c <- token 58; pdo v <- any_value; ret (MSsrc s a v)))].
Definition p_mattr (e : env) : parser mattr :=
  choice [attempt (choice (media_alts1 e)); attempt (choice (media_alts2 e)); pmap MUnused (typed_line 97 any_value)].

(** data.rs:239-242 *)
Definition is_dir (a : mattr) : bool := match a with MSendRecv | MSendOnly | MRecvOnly | MInactive => true | _ => false end.
Definition is_mid (a : mattr) : bool := match a with MMid _ => true | _ => false end.
Definition is_setup (a : mattr) : bool := match a with MSetup _ => true | _ => false end.
Definition is_map (pt : Z) (a : mattr) : bool := match a with MRtpMap p _ _ _ => p =? pt | _ => false end.
Definition count {A} (f : A -> bool) (l : list A) : Z := zlen (filter f l).
Definition is_srtp (p : proto) : bool := match p with Srtp => true | Sctp => false end.
(** data.rs:423-488 check_consistent: None is consistent; [self.mid()] in the messages finds the mid *)
Definition check_consistent (m : mline) : bool :=
  let n := count is_mid (ml_attrs m) in
  if n =? 0 then false else if 1 <? n then false
  else if 1 <? count is_setup (ml_attrs m) then false
  else if is_srtp (ml_proto m) && negb (count is_dir (ml_attrs m) =? 1) then false
  else if is_srtp (ml_proto m) && is_nil (ml_pts m) then false
  else forallb (fun pt => let n := count (is_map pt) (ml_attrs m) in
                          negb ((n =? 0) && negb (is_some (static_spec pt))) && negb (1 <? n)) (ml_pts m).

(** parser.rs:377-432 *)
Definition p_mtype : parser mtype :=
  choice [attempt (pmap (fun _ => MTAudio) (lit (T "audio"))); attempt (pmap (fun _ => MTVideo) (lit (T "video")));
          attempt (pmap (fun _ => MTApp) (lit (T "application"))); pmap MTUnknown not_sp].
Definition p_mproto : parser proto :=
  choice [attempt (pmap (fun _ => Srtp) (lit (T "UDP/TLS/RTP/SAVPF"))); attempt (pmap (fun _ => Sctp) (lit (T "DTLS/SCTP")));
          attempt (pmap (fun _ => Sctp) (lit (T "UDP/DTLS/SCTP")))].
Definition p_mhead : parser (mtype * str * proto * list Z) :=
  typed_line 109 (pdo t <- p_mtype; pdo _s <- token 32; pdo port <- not_sp; pdo _s <- token 32; pdo pr <- p_mproto;
    pdo _s <- token 32;
    pdo pts <- choice [attempt (sep_by (pand not_sp read_u8) (token 32)); pmap (fun _ => []) any_value];
    ret (t, port, pr, pts)).
(** parser.rs:348-375 *)
Definition p_mline (e : env) : parser mline :=
  pand (pdo h <- p_mhead; pdo _c <- optional (typed_line 99 any_value); pdo bw <- optional p_bw; pdo a <- many (p_mattr e);
        ret (match h with (t, port, pr, pts) => mkM t (seqb port (T "0")) pr pts bw a end))
       (fun m => if check_consistent m then Some m else None).
(** parser.rs:29-57, 17-27 *)
Definition p_sdp (e : env) : parser sdp :=
  pdo _v <- typed_line 118 (token 48);
  pdo id <- p_origin;
  pdo _s <- typed_line 115 any_value;
  pdo _i <- many p_ignored;
  pdo bw <- optional p_bw;
  pdo _t <- typed_line 116 (lit (T "0 0"));
  pdo _r <- many (typed_line 114 any_value);
  pdo a <- many (p_sattr e);
  pdo m <- many (p_mline e);
  ret (mkS id bw a m).
(** data.rs:30-35: what is left over is ignored *)
Definition sdp_parse (e : env) (s : str) : option sdp :=
  match p_sdp e s with POk _ d _ => Some d | PErr _ => None end.

(** ** parse.rs: candidates outside SDP *)
(** str::split_whitespace *)
Fixpoint words_go (fuel : nat) (s : str) : list str :=
  match fuel with
  | O => []
  | S f => match span (fun c => negb (is_space c)) (snd (span is_space s)) with
           | ([], _) => []
           | (w, r) => w :: words_go f r
           end
  end.
Definition words (s : str) : list str := words_go (length s) s.
Fixpoint strip (p s : str) : option str :=
  match p, s with
  | [], _ => Some s
  | x :: p, y :: s => if x =? y then strip p s else None
  | _ :: _, [] => None
  end.
(** parse.rs:63-93: the extensions *)
Record exts := mkX { x_raddr : option ip; x_rport : option Z; x_tcp : option nat; x_ufrag : option str }.
Fixpoint cand_exts (e : env) (l : list str) (x : exts) : option exts :=
  match l with
  | [] => Some x
  | k :: r =>
      if seqb k (T "raddr") then match r with v :: r => match ip_read e v with Some i => cand_exts e r (mkX (Some i) (x_rport x) (x_tcp x) (x_ufrag x)) | None => None end | [] => None end
      else if seqb k (T "rport") then match r with v :: r => match read_u16 v with Some p => cand_exts e r (mkX (x_raddr x) (Some p) (x_tcp x) (x_ufrag x)) | None => None end | [] => None end
      else if seqb k (T "tcptype") then match r with v :: r => match read_tcp v with Some t => cand_exts e r (mkX (x_raddr x) (x_rport x) (Some t) (x_ufrag x)) | None => None end | [] => None end
      else if seqb k (T "ufrag") then match r with v :: r => cand_exts e r (mkX (x_raddr x) (x_rport x) (x_tcp x) (Some v)) | [] => None end
      else match r with _ :: r => cand_exts e r x | [] => Some x end
  end.
Definition read_kind (s : str) : option ckind :=
  if seqb s (T "host") then Some Host else if seqb s (T "prflx") then Some PeerReflexive
  else if seqb s (T "srflx") then Some ServerReflexive else if seqb s (T "relay") then Some Relayed else None.
(** parse.rs:15-111 *)
Definition cand_parse (e : env) (s : str) : option candidate :=
  match strip (T "candidate:") s with
  | None => None
  | Some s =>
      match words s with
      | f :: comp :: pr :: prio :: a :: port :: typ :: k :: rest =>
          match read_u16 comp with None => None | Some comp =>
          match read_proto pr with None => None | Some pr =>
          match read_u32 prio with None => None | Some prio =>
          match ip_read e a with None => None | Some a =>
          match read_u16 port with None => None | Some port =>
          if negb (seqb typ (T "typ")) then None else
          match read_kind k with None => None | Some k =>
          match cand_exts e rest (mkX None None None None) with None => None | Some x =>
            Some (from_parts f comp pr prio a port k
                   (match x_raddr x, x_rport x with Some i, Some p => Some (i, p) | _, _ => None end) (x_tcp x) (x_ufrag x))
          end end end end end end end
      | _ => None
      end
  end.

(** ** The codec part of a media description *)
(** data.rs:396-412 *)
Definition fb_from (v : str) : fb :=
  if seqb v (T "goog-remb") then Remb else if seqb v (T "transport-cc") then Tcc else if seqb v (T "ccm fir") then Fir
  else if seqb v (T "nack") then Nack else if seqb v (T "nack pli") then Pli else OtherFb.
(** data.rs:317-391: what rtp_params looks at *)
Definition seen (a : mattr) : attr :=
  match a with
  | MRtpMap pt c k ch => RtpMap pt c k ch
  | MFmtp pt v => Fmtp pt v
  | MRtcpFb pt v => RtcpFb pt (fb_from v)
  | _ => OtherAttr
  end.
Definition line_params_of (m : mline) : list pp := rtp_params (ml_pts m) (map seen (ml_attrs m)).
(** data.rs:1117-1146 *)
Definition show_fb (v : fb) : str :=
  match v with Remb => T "goog-remb" | Tcc => T "transport-cc" | Fir => T "ccm fir" | Nack => T "nack" | Pli => T "nack pli" | OtherFb => [] end.
(** data.rs:1109-1170 as_media_attrs: the attributes themselves *)
Definition written (a : attr) : mattr :=
  match a with
  | RtpMap pt c k ch => MRtpMap pt c k ch
  | Fmtp pt v => MFmtp pt v
  | RtcpFb pt v => MRtcpFb pt (show_fb v)
  | OtherAttr => MUnused []
  end.

(* Model of the media direction type and of the SDP offer/answer bookkeeping:
   which m-lines a session has, at which index, in which direction.
     /repo/src/rtp/dir.rs            (whole file)
     /repo/src/change/sdp.rs         (SdpApi, Changes, apply_offer, apply_answer, as_sdp ...)
     /repo/src/session.rs            (set_app, add_media, set_direction, stop_media)
     /repo/src/media/mod.rs          (direction/stopped/disabled fields)
     /repo/src/sdp/data.rs           (MediaLine::direction, check_consistent, do_assert_consistency)
   Not modelled: streams, SSRCs, rids, simulcast, header extensions, msid/cname, ICE, DTLS and SCTP
   parts of these functions (they are taken to succeed), and payload types beyond "at least one". *)
From Coq Require Import List ZArith Bool String.
From Verif Require Import Base.
Import ListNotations.
Open Scope Z_scope.

(* dir.rs:7-16 *)
Inductive direction := SendOnly | RecvOnly | SendRecv | Inactive.

(* derive(PartialEq), dir.rs:6 *)
Definition dir_eqb (a b : direction) : bool :=
  match a, b with
  | SendOnly, SendOnly | RecvOnly, RecvOnly | SendRecv, SendRecv | Inactive, Inactive => true
  | _, _ => false
  end.

(* dir.rs:25-31 *)
Definition invert (d : direction) : direction :=
  match d with SendOnly => RecvOnly | RecvOnly => SendOnly | _ => d end.

(* dir.rs:34-36 *)
Definition is_sending (d : direction) : bool :=
  match d with SendOnly | SendRecv => true | _ => false end.

(* dir.rs:39-41 *)
Definition is_receiving (d : direction) : bool :=
  match d with RecvOnly | SendRecv => true | _ => false end.

(* dir.rs:45-57 *)
Definition sdp_is_receiving (d : direction) : bool :=
  match d with RecvOnly | SendRecv | Inactive => true | _ => false end.

(* dir.rs:60-70 *)
Definition dir_of_string (s : string) : direction :=
  if String.eqb s "sendonly" then SendOnly
  else if String.eqb s "recvonly" then RecvOnly
  else if String.eqb s "sendrecv" then SendRecv
  else Inactive.

(* dir.rs:72-85 *)
Definition dir_to_string (d : direction) : string :=
  match d with
  | SendOnly => "sendonly" | RecvOnly => "recvonly"
  | SendRecv => "sendrecv" | Inactive => "inactive"
  end.

(* sdp/data.rs MediaType (735-766) *)
Inductive mtype := TAudio | TVideo | TApp | TUnknown.

Definition is_media_t (t : mtype) : bool := match t with TAudio | TVideo => true | _ => false end.
Definition is_channel_t (t : mtype) : bool := match t with TApp => true | _ => false end.

(* sdp/data.rs MediaLine (235-252), reduced to: type, protocol (Srtp or not), a=mid, port 0,
   the direction attributes in order of appearance, and whether the m= line lists a payload type. *)
Record line := mkLine {
  l_type : mtype; l_srtp : bool; l_mid : Z; l_disabled : bool; l_dirs : list direction; l_pts : bool
}.

(* sdp/data.rs Sdp/Session: the a=group attributes (is it BUNDLE?, mids) and the m-lines. *)
Record sdp := mkSdp { s_groups : list (bool * list Z); s_lines : list line }.

(* sdp/data.rs:294-306 *)
Definition l_dir (l : line) : direction :=
  match l_dirs l with d :: _ => d | [] => Inactive end.

(* sdp/data.rs:38-47 *)
Definition bundle_mids (s : sdp) : option (list Z) :=
  match find (fun g => fst g) (s_groups s) with Some (_, m) => Some m | None => None end.

(* sdp/data.rs:423-490: the checks on direction and payload types (a=mid is present by
   construction here; rtpmap/setup checks are not modelled). true = consistent. *)
Definition line_ok (l : line) : bool :=
  if l_srtp l then (zlen (l_dirs l) =? 1) && l_pts l else true.

(* sdp/data.rs:111-125, the zip loop.  check_consistent() gives None for a good line, and `?`
   then returns None ("no error") from the whole function; an error text is thrown away. *)
Fixpoint consistency_loop (ls : list line) (mids : list Z) : bool :=
  match ls, mids with
  | l :: ls', m :: mids' =>
      if line_ok l then true
      else if negb (l_mid l =? m) then false else consistency_loop ls' mids'
  | _, _ => true
  end.

(* sdp/data.rs:98-130. The length test (110) negates the length bitwise and so never fires:
   the complement of a list length is never the length of a list in memory. *)
Definition assert_consistency (s : sdp) : bool :=
  match s_groups s with
  | (_, mids) :: _ => consistency_loop (s_lines s) mids
  | [] => false
  end.

(* Writing an SDP to text and parsing it again (sdp/data.rs:1319-1322, 1356-1382;
   sdp/parser.rs:118-128, 192-204, 349-375, 425-428): a group without mids is read as an unknown
   attribute, and a line that is not consistent is a parse error. *)
Definition wire (s : sdp) : option sdp :=
  if forallb line_ok (s_lines s)
  then Some (mkSdp (filter (fun g => match snd g with [] => false | _ => true end) (s_groups s))
                   (s_lines s))
  else None.

(* media/mod.rs Media (70-142), the fields that matter here; m_pts is "remote_pts is not empty". *)
Record media := mkMedia {
  m_mid : Z; m_index : Z; m_audio : bool; m_dir : direction;
  m_stopped : bool; m_pts : bool; m_remote : bool;
  m_open : bool;      (* need_open_event *)
  m_changed : bool    (* need_changed_event *)
}.

(* media/mod.rs:298-300 *)
Definition disabled (m : media) : bool := m_stopped m || negb (m_pts m).

(* media/mod.rs:314-316 *)
Definition mark_stopped (m : media) : media :=
  mkMedia (m_mid m) (m_index m) (m_audio m) (m_dir m) true (m_pts m) (m_remote m) (m_open m) (m_changed m).

(* media/mod.rs:440-443 *)
Definition media_set_dir (m : media) (d : direction) : media :=
  mkMedia (m_mid m) (m_index m) (m_audio m) d (m_stopped m) (m_pts m) (m_remote m) (m_open m)
          (negb (dir_eqb (m_dir m) d)).

Definition media_set_pts (m : media) (p : bool) : media :=
  mkMedia (m_mid m) (m_index m) (m_audio m) (m_dir m) (m_stopped m) p (m_remote m) (m_open m) (m_changed m).

Definition media_set_open (m : media) (b : bool) : media :=
  mkMedia (m_mid m) (m_index m) (m_audio m) (m_dir m) (m_stopped m) (m_pts m) (m_remote m) b (m_changed m).

(* session.rs Session: medias and app (mid, index) *)
Record session := mkSession { medias : list media; app : option (Z * Z) }.

(* change/sdp.rs:635-641. AddMedia carries whether the codec config has payload types of its kind
   (as_new_media, 1830). *)
Inductive change :=
| AddMedia (mid : Z) (audio : bool) (dir : direction) (pts : bool)
| AddApp (mid : Z)
| AddChannel
| ChDirection (mid : Z) (dir : direction)
| IceRestart.

(* lib.rs Rtc: session and change_counter *)
Record rtc := mkRtc { ses : session; counter : Z }.

(* lib.rs:2133-2141 *)
Definition next_change_id (r : rtc) : Z * rtc := (counter r, mkRtc (ses r) (counter r + 1)).
Definition is_correct_change_id (r : rtc) (id : Z) : bool := counter r =? id + 1.

(* Iterator::position by mid / index *)
Definition media_by_mid (l : list media) (mid : Z) : option media :=
  find (fun m => m_mid m =? mid) l.

(* session.medias.iter_mut().find(|l| l.mid() == mid): change the first media with that mid *)
Fixpoint upd_mid (l : list media) (mid : Z) (f : media -> media) : list media :=
  match l with
  | [] => []
  | m :: l' => if m_mid m =? mid then f m :: l' else m :: upd_mid l' mid f
  end.

(* session.rs:1235-1257 (stream buffers not modelled) *)
Definition session_set_direction (s : session) (mid : Z) (d : direction) : session * bool :=
  match media_by_mid (medias s) mid with
  | None => (s, false)
  | Some m =>
      if dir_eqb (m_dir m) d then (s, false)
      else (mkSession (upd_mid (medias s) mid (fun m => media_set_dir m d)) (app s), true)
  end.

(* session.rs:1258-1271 *)
Definition session_stop_media (s : session) (mid : Z) : session * bool :=
  match media_by_mid (medias s) mid with
  | None => (s, false)
  | Some m =>
      if disabled m then (s, false)
      else
        let s1 := mkSession (upd_mid (medias s) mid mark_stopped) (app s) in
        (fst (session_set_direction s1 mid Inactive), true)
  end.

(* change/sdp.rs:30-33, the API object: the rtc and the changes so far *)
Record api := mkApi { a_rtc : rtc; a_changes : list change }.

(* The local calls on SdpApi that collect changes. *)
Inductive call :=
| CAddMedia (mid : Z) (audio : bool) (dir : direction) (pts : bool)
| CSetDirection (mid : Z) (dir : direction)
| CStopMedia (mid : Z)
| CAddChannel (mid : Z)        (* mid to use if an m=application line is needed *)
| CIceRestart.

Definition is_add_app (c : change) : bool := match c with AddApp _ => true | _ => false end.
Definition is_ice_restart (c : change) : bool := match c with IceRestart => true | _ => false end.

(* change/sdp.rs:274-344, 357-363, 379-387, 441-455, 467-476 *)
Definition do_call (a : api) (c : call) : api :=
  let r := a_rtc a in
  match c with
  | CAddMedia mid audio dir pts => mkApi r (a_changes a ++ [AddMedia mid audio dir pts])
  | CSetDirection mid dir =>
      let (s, changed) := session_set_direction (ses r) mid dir in
      mkApi (mkRtc s (counter r))
            (if changed then a_changes a ++ [ChDirection mid dir] else a_changes a)
  | CStopMedia mid =>
      let (s, changed) := session_stop_media (ses r) mid in
      mkApi (mkRtc s (counter r))
            (if changed then a_changes a ++ [ChDirection mid Inactive] else a_changes a)
  | CAddChannel mid =>
      let has_media := match app (ses r) with Some _ => true | None => false end in
      let cs := if negb has_media && negb (existsb is_add_app (a_changes a))
                then a_changes a ++ [AddApp mid] else a_changes a in
      mkApi r (cs ++ [AddChannel])
  | CIceRestart =>
      mkApi r (filter (fun c => negb (is_ice_restart c)) (a_changes a) ++ [IceRestart])
  end.

(* change/sdp.rs:675-683 *)
Definition requires_negotiation (c : change) : bool :=
  match c with AddChannel => false | _ => true end.

(* An entry of as_media_lines: the app line or a media (AsSdpMediaLine, 1419-1588).
   EMedia with an app_tmp media (from_app_tmp) is an EApp here. *)
Inductive entry := EApp (mid index : Z) | EMedia (m : media).

Definition e_index (e : entry) : Z := match e with EApp _ i => i | EMedia m => m_index m end.
Definition e_mid (e : entry) : Z := match e with EApp i _ => i | EMedia m => m_mid m end.

(* change/sdp.rs:1433-1468, 1470-1587 *)
Definition line_of (e : entry) : line :=
  match e with
  | EApp mid _ => mkLine TApp false mid false [] false
  | EMedia m => mkLine (if m_audio m then TAudio else TVideo) true (m_mid m) (disabled m) [m_dir m] (m_pts m)
  end.

(* Vec::sort_by_key is stable: insertion sort, equal keys keep their order. *)
Fixpoint insert_entry (e : entry) (l : list entry) : list entry :=
  match l with
  | [] => [e]
  | x :: l' => if e_index e <=? e_index x then e :: x :: l' else x :: insert_entry e l'
  end.

Fixpoint sort_entries (l : list entry) : list entry :=
  match l with [] => [] | e :: l' => insert_entry e (sort_entries l') end.

(* change/sdp.rs:1245-1254 *)
Definition entries (s : session) : list entry :=
  match app s with Some (mid, i) => [EApp mid i] | None => [] end ++ map EMedia (medias s).

Definition as_media_lines (s : session) : list entry := sort_entries (entries s).

(* change/sdp.rs:1765-1783, 1819-1838; media/mod.rs from_add_media *)
Fixpoint as_new_medias (idx : Z) (cs : list change) : list entry :=
  match cs with
  | [] => []
  | AddMedia mid audio dir pts :: cs' =>
      EMedia (mkMedia mid idx audio dir false pts false true false) :: as_new_medias (idx + 1) cs'
  | AddApp mid :: cs' => EApp mid idx :: as_new_medias (idx + 1) cs'
  | _ :: cs' => as_new_medias idx cs'
  end.

Definition set_first_dir (d : direction) (ds : list direction) : list direction :=
  match ds with [] => [] | _ :: r => d :: r end.

(* lines.iter_mut().find(|l| l.mid() == *mid), and its first direction attribute *)
Fixpoint set_line_dir (mid : Z) (d : direction) (ls : list line) : list line :=
  match ls with
  | [] => []
  | l :: ls' =>
      if l_mid l =? mid
      then mkLine (l_type l) (l_srtp l) (l_mid l) (l_disabled l) (set_first_dir d (l_dirs l)) (l_pts l) :: ls'
      else l :: set_line_dir mid d ls'
  end.

(* change/sdp.rs:1785-1795 *)
Fixpoint apply_to (cs : list change) (ls : list line) : list line :=
  match cs with
  | [] => ls
  | ChDirection mid d :: cs' => apply_to cs' (set_line_dir mid d ls)
  | _ :: cs' => apply_to cs' ls
  end.

(* change/sdp.rs:837-944 *)
Definition as_sdp (s : session) (pending : list change) : sdp :=
  let v := as_media_lines s in
  let new_lines := as_new_medias (zlen v) pending in
  let lines := apply_to pending (map line_of (v ++ new_lines)) in
  let mids := map l_mid (filter (fun l => negb (l_disabled l)) lines) in
  mkSdp [(true, mids)] lines.

(* change/sdp.rs:502-524. None when there is nothing to negotiate. *)
Definition api_apply (a : api) : rtc * option (sdp * (Z * list change)) :=
  match a_changes a with
  | [] => (a_rtc a, None)
  | cs =>
      let (id, r) := next_change_id (a_rtc a) in
      if existsb requires_negotiation cs
      then (r, Some (as_sdp (ses r) cs, (id, cs)))
      else (r, None)
  end.

(* change/sdp.rs:597-612 (AddChannel / IceRestart relevance depends on parts not modelled: kept) *)
Definition is_relevant (s : session) (c : change) : bool :=
  match c with
  | AddMedia mid _ _ _ => match media_by_mid (medias s) mid with None => true | Some _ => false end
  | AddApp _ => match app s with None => true | Some _ => false end
  | ChDirection mid d =>
      match media_by_mid (medias s) mid with Some m => negb (dir_eqb (m_dir m) d) | None => false end
  | _ => true
  end.

(* change/sdp.rs:551-562 *)
Definition api_merge (a : api) (pending : Z * list change) : api :=
  mkApi (a_rtc a) (filter (is_relevant (ses (a_rtc a))) (snd pending) ++ a_changes a).

(* change/sdp.rs:1270-1273 *)
Definition is_rejected (bundle : option (list Z)) (l : line) : bool :=
  l_disabled l &&
  negb (match bundle with Some mids => existsb (Z.eqb (l_mid l)) mids | None => false end).

Section Codec.
(* config.sdp_match_remote over the line's rtp params finds at least one (1329-1334): an oracle *)
Variable matched : line -> bool.

(* change/sdp.rs:1256-1334 *)
Definition update_media (bundle : option (list Z)) (m : media) (l : line) : media :=
  if is_rejected bundle l then media_set_dir (mark_stopped m) Inactive
  else
    let new_dir := invert (l_dir l) in
    let disallowed := negb (m_remote m) && dir_eqb (m_dir m) Inactive && dir_eqb new_dir SendOnly in
    let m1 := if disallowed then m else media_set_dir m new_dir in
    media_set_pts m1 (matched l).

(* session.medias.iter().position(|l| l.index() == idx) *)
Definition media_at (l : list media) (idx : Z) : option media :=
  find (fun m => m_index m =? idx) l.

(* Vec::swap_remove of the first element with that index *)
Fixpoint position_idx (l : list media) (idx : Z) : option nat :=
  match l with
  | [] => None
  | m :: l' => if m_index m =? idx then Some O
               else match position_idx l' idx with Some n => Some (S n) | None => None end
  end.

Definition swap_remove (l : list media) (pos : nat) : list media :=
  match rev l with
  | [] => []
  | lst :: _ =>
      if Nat.eqb (S pos) (length l) then removelast l
      else firstn pos l ++ [lst] ++ removelast (skipn (S pos) l)
  end.

(* change/sdp.rs:1092-1162. The session as changed so far is returned also with an error. *)
Fixpoint sync_medias (bundle : option (list Z)) (is_offer : bool) (s : session) (idx : Z)
         (ls : list line) : session * option (list (Z * line)) :=
  match ls with
  | [] => (s, Some [])
  | l :: ls' =>
      let new s :=
        match sync_medias bundle is_offer s (idx + 1) ls' with
        | (s', Some nl) => (s', Some ((idx, l) :: nl))
        | (s', None) => (s', None)
        end in
      match l_type l with
      | TUnknown => sync_medias bundle is_offer s (idx + 1) ls'
      | TApp =>
          match app s with
          | Some (_, i) => if negb (idx =? i) then (s, None)
                           else sync_medias bundle is_offer s (idx + 1) ls'
          | None => new s
          end
      | _ =>
          match media_by_mid (medias s) (l_mid l) with
          | Some m =>
              if negb (idx =? m_index m) then (s, None)
              else sync_medias bundle is_offer
                     (mkSession (upd_mid (medias s) (l_mid l) (fun m => update_media bundle m l)) (app s))
                     (idx + 1) ls'
          | None =>
              match position_idx (medias s) idx with
              | Some pos =>
                  if negb is_offer then (s, None)
                  else match nth_error (medias s) pos with
                       | Some m =>
                           if negb (disabled m) then (s, None)
                           else new (mkSession (swap_remove (medias s) pos) (app s))
                       | None => (s, None)
                       end
              | None => new s
              end
          end
      end
  end.

(* media/mod.rs:620-640 with change/sdp.rs:1178-1187 *)
Definition from_remote (l : line) (idx : Z) (is_offer : bool) : media :=
  mkMedia (l_mid l) idx (match l_type l with TAudio => true | _ => false end)
          (if l_disabled l then Inactive else invert (l_dir l))
          false false is_offer true false.

(* session.rs:241-253 *)
Definition set_app (s : session) (mid idx : Z) : session * bool :=
  match app s with
  | Some (mid0, idx0) => if negb (mid0 =? mid) then (s, false)
                         else if negb (idx0 =? idx) then (s, false) else (s, true)
  | None => (mkSession (medias s) (Some (mid, idx)), true)
  end.

(* change/sdp.rs:1168-1218 *)
Fixpoint add_new_lines (bundle : option (list Z)) (is_offer : bool) (s : session)
         (nl : list (Z * line)) : session * bool :=
  match nl with
  | [] => (s, true)
  | (idx, l) :: nl' =>
      if is_media_t (l_type l) then
        let m := media_set_open (from_remote l idx is_offer) (is_offer && negb (is_rejected bundle l)) in
        let m := update_media bundle m l in
        add_new_lines bundle is_offer (mkSession (medias s ++ [m]) (app s)) nl'
      else if is_channel_t (l_type l) then
        match set_app s (l_mid l) idx with
        | (s', true) => add_new_lines bundle is_offer s' nl'
        | (s', false) => (s', false)
        end
      else (s, false)
  end.

(* change/sdp.rs:68-134 and 946-959 (ICE, DTLS and SCTP parts taken to succeed).
   The answer, or an error (None); the rtc as changed is returned in both cases. *)
Definition accept_offer (r : rtc) (o : sdp) : rtc * option sdp :=
  let (_, r1) := next_change_id r in
  match s_lines o with
  | [] => (r1, None)
  | _ =>
      if negb (assert_consistency o) then (r1, None)
      else
        match sync_medias (bundle_mids o) true (ses r1) 0 (s_lines o) with
        | (s, None) => (mkRtc s (counter r1), None)
        | (s, Some nl) =>
            match add_new_lines (bundle_mids o) true s nl with
            | (s', false) => (mkRtc s' (counter r1), None)
            | (s', true) => (mkRtc s' (counter r1), Some (as_sdp s' []))
            end
        end
  end.

Definition is_new_media (c : change) : bool :=
  match c with AddMedia _ _ _ _ | AddApp _ => true | _ => false end.

(* change/sdp.rs:1727-1752, for one line *)
Fixpoint answer_line_ok (cs : list change) (l : line) : bool :=
  match cs with
  | [] => false
  | AddMedia mid _ _ _ :: cs' => if mid =? l_mid l then is_media_t (l_type l) else answer_line_ok cs' l
  | AddApp mid :: cs' => if mid =? l_mid l then is_channel_t (l_type l) else answer_line_ok cs' l
  | _ :: cs' => answer_line_ok cs' l
  end.

(* change/sdp.rs:1715-1756 *)
Definition ensure_correct_answer (cs : list change) (nl : list (Z * line)) : bool :=
  (zlen (filter is_new_media cs) =? zlen nl) && forallb (fun p => answer_line_ok cs (snd p)) nl.

(* change/sdp.rs:1046-1083: panics (expect, 1058) if a media that was offered is missing *)
Definition add_pending_ok (s : session) (cs : list change) : bool :=
  forallb (fun c => match c with
                    | AddMedia mid _ _ _ =>
                        match media_by_mid (medias s) mid with Some _ => true | None => false end
                    | _ => true
                    end) cs.

(* RtcError::ChangesOutOfOrder, RtcError::RemoteSdp, and a panic *)
Inductive answer_res := AnsOk | AnsOutOfOrder | AnsRemoteSdp | AnsPanic.

(* change/sdp.rs:158-229 and 961-986. *)
Definition accept_answer (r : rtc) (pending : Z * list change) (a : sdp) : rtc * answer_res :=
  if negb (is_correct_change_id r (fst pending)) then (r, AnsOutOfOrder)
  else
    let cs := filter (fun c => match c with AddChannel => false | _ => true end) (snd pending) in
    if negb (assert_consistency a) then (r, AnsRemoteSdp)
    else
      match sync_medias (bundle_mids a) false (ses r) 0 (s_lines a) with
      | (s, None) => (mkRtc s (counter r), AnsRemoteSdp)
      | (s, Some nl) =>
          if negb (ensure_correct_answer cs nl) then (mkRtc s (counter r), AnsRemoteSdp)
          else
            match add_new_lines (bundle_mids a) false s nl with
            | (s', false) => (mkRtc s' (counter r), AnsRemoteSdp)
            | (s', true) =>
                (mkRtc s' (counter r), if add_pending_ok s' cs then AnsOk else AnsPanic)
            end
      end.
End Codec.

(* session.rs:858-877: the open / changed events of the first media that has one *)
Fixpoint poll_media_event (l : list media) : list media * option (bool * Z * direction) :=
  match l with
  | [] => ([], None)
  | m :: l' =>
      if m_open m then (media_set_open m false :: l', Some (true, m_mid m, m_dir m))
      else if m_changed m then
        (mkMedia (m_mid m) (m_index m) (m_audio m) (m_dir m) (m_stopped m) (m_pts m) (m_remote m)
                 (m_open m) false :: l', Some (false, m_mid m, m_dir m))
      else let (l'', e) := poll_media_event l' in (m :: l'', e)
  end.

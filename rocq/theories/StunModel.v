(** Model of /repo/crates/is/src/stun.rs: STUN messages, written and parsed.
    Strings are their UTF-8 bytes ([RtcpModel.utf8] is str::from_utf8).  HMAC-SHA1 and the CRC-32 are
    parameters ([prims]); the closure that feeds HMAC several slices is HMAC of their concatenation.
    Socket addresses: V4/V6 octets and the port (SocketAddr::new: flow info and scope id are zero). *)
From Verif Require Import Base.
From Verif Require Export RtcpModel.

Record prims := mkPrims { hmac : list Z -> list Z -> list Z; crc : list Z -> Z }.

(** stun.rs:490 *)
Definition MAGIC : list Z := [33; 18; 164; 66].
(** stun.rs:492-523 *)
Inductive class := Request | Indication | Success | Failure.
Definition class_from_typ (t : Z) : class :=
  let m := Z.land t 272 in
  if m =? 0 then Request else if m =? 16 then Indication else if m =? 256 then Success else Failure.
Definition class_to_u16 (c : class) : Z := match c with Request => 0 | Indication => 16 | Success => 256 | Failure => 272 end.
(** stun.rs:525-567; [to_u16] of Unknown panics *)
Inductive method := Binding | Allocate | Refresh | Send | Data | CreatePermission | ChannelBind | UnknownMethod.
Definition method_from_typ (t : Z) : method :=
  let m := Z.land t 16111 in
  if m =? 1 then Binding else if m =? 3 then Allocate else if m =? 4 then Refresh else if m =? 6 then Send
  else if m =? 7 then Data else if m =? 8 then CreatePermission else if m =? 9 then ChannelBind else UnknownMethod.
Definition method_to_u16 (m : method) : res Z :=
  match m with Binding => Ok 1 | Allocate => Ok 3 | Refresh => Ok 4 | Send => Ok 6 | Data => Ok 7 | CreatePermission => Ok 8
             | ChannelBind => Ok 9 | UnknownMethod => Panic end.

Inductive addr := V4 (ip : list Z) (port : Z) | V6 (ip : list Z) (port : Z).
(** stun.rs:569-591 *)
Record attrs := mkA {
  username : option (list Z); message_integrity : option (list Z); error_code : option (Z * list Z);
  channel_number : option Z; lifetime : option Z; xor_peer_address : option addr; data : option (list Z);
  realm : option (list Z); nonce : option (list Z); xor_relayed_address : option addr; xor_mapped_address : option addr;
  software : option (list Z); fingerprint : option Z; priority : option Z; use_candidate : bool;
  ice_controlled : option Z; ice_controlling : option Z; network_cost : option (Z * Z) }.
Definition attrs0 : attrs := mkA None None None None None None None None None None None None None None false None None None.
(** stun.rs:109-117 *)
Record msg := mkM { m_method : method; m_class : class; trans_id : list Z; m_attrs : attrs; integrity : list Z; integrity_len : Z }.

(** stun.rs:1086-1088 *)
Definition calculate_pad (len : Z) : Z := (4 - len mod 4) mod 4.
(** stun.rs:706-781 *)
Definition olen {A} (o : option A) (f : A -> Z) : Z := match o with Some v => 4 + f v | None => 0 end.
Definition str_len (v : list Z) : Z := zlen v + calculate_pad (zlen v).
Definition addr_len (a : addr) : Z := match a with V4 _ _ => 8 | V6 _ _ => 20 end.
Definition padded_len (a : attrs) : Z :=
  olen (username a) str_len + olen (ice_controlled a) (fun _ => 8) + olen (ice_controlling a) (fun _ => 8)
  + olen (priority a) (fun _ => 4) + olen (xor_mapped_address a) addr_len + (if use_candidate a then 4 else 0)
  + olen (xor_peer_address a) addr_len + olen (xor_relayed_address a) addr_len + olen (data a) str_len
  + olen (channel_number a) (fun _ => 4) + olen (lifetime a) (fun _ => 4) + olen (realm a) str_len
  + olen (nonce a) str_len + olen (error_code a) (fun '(_, reason) => 4 + zlen reason + calculate_pad (zlen reason)).

(** stun.rs:1090-1105 *)
Definition encode_str_no_len (s : list Z) : res (list Z) := if 128 <? zlen s then Err else Ok s.
Definition encode_str (s : list Z) : res (list Z) := do b <- encode_str_no_len s; Ok (be16 (zlen s mod 65536) ++ b).
Definition pad_bytes (len : Z) : list Z := rep 0 (calculate_pad len).
(** stun.rs:1119-1143 *)
Definition xor_with (k b : list Z) : list Z := map (fun '(x, y) => Z.lxor x y) (combine b k).
Definition encode_xor (a : addr) (tid : list Z) : list Z :=
  match a with
  | V4 ip port => 0 :: 1 :: be16 (Z.lxor port 8466) ++ xor_with MAGIC ip
  | V6 ip port => 0 :: 2 :: be16 (Z.lxor port 8466) ++ xor_with (MAGIC ++ tid) ip
  end.
(** stun.rs:783-889 *)
Definition put_str (ty : Z) (o : option (list Z)) : res (list Z) :=
  match o with None => Ok [] | Some v => do b <- encode_str v; Ok (be16 ty ++ b ++ pad_bytes (zlen v)) end.
Definition put_fix (ty : Z) (o : option (list Z)) : list Z :=
  match o with None => [] | Some v => be16 ty ++ be16 (zlen v) ++ v end.
Definition omap {A B} (f : A -> B) (o : option A) : option B := match o with Some x => Some (f x) | None => None end.
Definition attrs_to_bytes (a : attrs) (tid : list Z) : res (list Z) :=
  do b1 <- put_str 6 (username a);
  let b2 := put_fix 32809 (omap be64 (ice_controlled a)) ++ put_fix 32810 (omap be64 (ice_controlling a))
            ++ put_fix 36 (omap be32 (priority a)) ++ put_fix 32 (omap (fun v => encode_xor v tid) (xor_mapped_address a))
            ++ (if use_candidate a then be16 37 ++ be16 0 else []) in
  do b3 <- match data a with
           | None => Ok []
           | Some d => if 65535 <? zlen d then Err else Ok (be16 19 ++ be16 (zlen d mod 65536) ++ d ++ pad_bytes (zlen d))
           end;
  let b4 := put_fix 22 (omap (fun v => encode_xor v tid) (xor_relayed_address a))
            ++ put_fix 18 (omap (fun v => encode_xor v tid) (xor_peer_address a))
            ++ put_fix 12 (omap (fun v => be16 v ++ [0; 0]) (channel_number a)) ++ put_fix 13 (omap be32 (lifetime a)) in
  do b5 <- put_str 20 (realm a);
  do b6 <- put_str 21 (nonce a);
  do b7 <- match error_code a with
           | None => Ok []
           | Some (code, reason) =>
               if 65535 <? 4 + zlen reason mod 65536 then Panic else
               do r <- encode_str_no_len reason;
               Ok (be16 9 ++ be16 (4 + zlen reason mod 65536) ++ be16 0 ++ [Z.land 7 (code / 100 mod 256); code mod 100]
                   ++ r ++ pad_bytes (zlen reason))
           end;
  Ok (b1 ++ b2 ++ b3 ++ b4 ++ b5 ++ b6 ++ b7).

(** Overwriting [v] at offset [i]: copy_from_slice on a sub-slice, which panics outside. *)
Definition put_at (b : list Z) (i : Z) (v : list Z) : res (list Z) :=
  if (0 <=? i) && (i + zlen v <=? zlen b) then Ok (firstn (Z.to_nat i) b ++ v ++ skipn (Z.to_nat (i + zlen v)) b) else Panic.
(** stun.rs:413-487; [room] is the size of the buffer: the cursor refuses to write past it (Err).
    The result is the message; the rest of the buffer is not changed. *)
Definition to_bytes (P : prims) (m : msg) (password : option (list Z)) (room : Z) : res (list Z) :=
  let a := m_attrs m in
  let milen := match password with Some _ => 24 | None => 0 end in
  let attr_len := padded_len a + milen + 8 in
  do mt <- method_to_u16 (m_method m);
  let typ := Z.lor (class_to_u16 (m_class m)) mt in
  do ab <- attrs_to_bytes a (trans_id m);
  let b := be16 typ ++ be16 ((attr_len - 8) mod 65536) ++ MAGIC ++ trans_id m ++ ab
           ++ (match password with Some _ => be16 8 ++ be16 20 ++ rep 0 20 | None => [] end)
           ++ be16 32808 ++ be16 4 ++ rep 0 4 in
  if room <? zlen b then Err else
  let ivo := 20 + padded_len a + 4 in
  let fvo := ivo + milen in
  do b <- match password with
          | Some pw => do pre <- upto b (ivo - 4); put_at b ivo (hmac P pw pre)
          | None => Ok b
          end;
  do b <- put_at b 2 (be16 (attr_len mod 65536));
  do pre <- upto b (fvo - 4);
  put_at b fvo (be32 (Z.lxor (crc P pre) 1398035790)).

(** stun.rs:1107-1117 *)
Definition decode_str (max : Z) (b : list Z) (len : Z) : res (list Z) :=
  if max <? len then Err else do s <- upto b len; if utf8 s then Ok s else Err.
(** stun.rs:1145-1181 *)
Definition decode_xor (b tid : list Z) : res addr :=
  if zlen b <? 4 then Err else
  do p2 <- idx b 2; do p3 <- idx b 3;
  let port := Z.lxor (rd16 p2 p3) 8466 in
  do ip <- from b 4;
  do v <- idx b 1;
  if (v =? 1) && (4 <=? zlen ip) then Ok (V4 (xor_with MAGIC (firstn 4 ip)) port)
  else if (v =? 2) && (16 <=? zlen ip) then Ok (V6 (xor_with (MAGIC ++ tid) (firstn 16 ip)) port)
  else Err.

Definition set_username v a := mkA v (message_integrity a) (error_code a) (channel_number a) (lifetime a) (xor_peer_address a) (data a) (realm a) (nonce a) (xor_relayed_address a) (xor_mapped_address a) (software a) (fingerprint a) (priority a) (use_candidate a) (ice_controlled a) (ice_controlling a) (network_cost a).
Definition set_integrity v a := mkA (username a) v (error_code a) (channel_number a) (lifetime a) (xor_peer_address a) (data a) (realm a) (nonce a) (xor_relayed_address a) (xor_mapped_address a) (software a) (fingerprint a) (priority a) (use_candidate a) (ice_controlled a) (ice_controlling a) (network_cost a).
Definition set_error v a := mkA (username a) (message_integrity a) v (channel_number a) (lifetime a) (xor_peer_address a) (data a) (realm a) (nonce a) (xor_relayed_address a) (xor_mapped_address a) (software a) (fingerprint a) (priority a) (use_candidate a) (ice_controlled a) (ice_controlling a) (network_cost a).
Definition set_channel v a := mkA (username a) (message_integrity a) (error_code a) v (lifetime a) (xor_peer_address a) (data a) (realm a) (nonce a) (xor_relayed_address a) (xor_mapped_address a) (software a) (fingerprint a) (priority a) (use_candidate a) (ice_controlled a) (ice_controlling a) (network_cost a).
Definition set_lifetime v a := mkA (username a) (message_integrity a) (error_code a) (channel_number a) v (xor_peer_address a) (data a) (realm a) (nonce a) (xor_relayed_address a) (xor_mapped_address a) (software a) (fingerprint a) (priority a) (use_candidate a) (ice_controlled a) (ice_controlling a) (network_cost a).
Definition set_peer v a := mkA (username a) (message_integrity a) (error_code a) (channel_number a) (lifetime a) v (data a) (realm a) (nonce a) (xor_relayed_address a) (xor_mapped_address a) (software a) (fingerprint a) (priority a) (use_candidate a) (ice_controlled a) (ice_controlling a) (network_cost a).
Definition set_data v a := mkA (username a) (message_integrity a) (error_code a) (channel_number a) (lifetime a) (xor_peer_address a) v (realm a) (nonce a) (xor_relayed_address a) (xor_mapped_address a) (software a) (fingerprint a) (priority a) (use_candidate a) (ice_controlled a) (ice_controlling a) (network_cost a).
Definition set_realm v a := mkA (username a) (message_integrity a) (error_code a) (channel_number a) (lifetime a) (xor_peer_address a) (data a) v (nonce a) (xor_relayed_address a) (xor_mapped_address a) (software a) (fingerprint a) (priority a) (use_candidate a) (ice_controlled a) (ice_controlling a) (network_cost a).
Definition set_nonce v a := mkA (username a) (message_integrity a) (error_code a) (channel_number a) (lifetime a) (xor_peer_address a) (data a) (realm a) v (xor_relayed_address a) (xor_mapped_address a) (software a) (fingerprint a) (priority a) (use_candidate a) (ice_controlled a) (ice_controlling a) (network_cost a).
Definition set_relayed v a := mkA (username a) (message_integrity a) (error_code a) (channel_number a) (lifetime a) (xor_peer_address a) (data a) (realm a) (nonce a) v (xor_mapped_address a) (software a) (fingerprint a) (priority a) (use_candidate a) (ice_controlled a) (ice_controlling a) (network_cost a).
Definition set_mapped v a := mkA (username a) (message_integrity a) (error_code a) (channel_number a) (lifetime a) (xor_peer_address a) (data a) (realm a) (nonce a) (xor_relayed_address a) v (software a) (fingerprint a) (priority a) (use_candidate a) (ice_controlled a) (ice_controlling a) (network_cost a).
Definition set_software v a := mkA (username a) (message_integrity a) (error_code a) (channel_number a) (lifetime a) (xor_peer_address a) (data a) (realm a) (nonce a) (xor_relayed_address a) (xor_mapped_address a) v (fingerprint a) (priority a) (use_candidate a) (ice_controlled a) (ice_controlling a) (network_cost a).
Definition set_fingerprint v a := mkA (username a) (message_integrity a) (error_code a) (channel_number a) (lifetime a) (xor_peer_address a) (data a) (realm a) (nonce a) (xor_relayed_address a) (xor_mapped_address a) (software a) v (priority a) (use_candidate a) (ice_controlled a) (ice_controlling a) (network_cost a).
Definition set_priority v a := mkA (username a) (message_integrity a) (error_code a) (channel_number a) (lifetime a) (xor_peer_address a) (data a) (realm a) (nonce a) (xor_relayed_address a) (xor_mapped_address a) (software a) (fingerprint a) v (use_candidate a) (ice_controlled a) (ice_controlling a) (network_cost a).
Definition set_use a := mkA (username a) (message_integrity a) (error_code a) (channel_number a) (lifetime a) (xor_peer_address a) (data a) (realm a) (nonce a) (xor_relayed_address a) (xor_mapped_address a) (software a) (fingerprint a) (priority a) true (ice_controlled a) (ice_controlling a) (network_cost a).
Definition set_controlled v a := mkA (username a) (message_integrity a) (error_code a) (channel_number a) (lifetime a) (xor_peer_address a) (data a) (realm a) (nonce a) (xor_relayed_address a) (xor_mapped_address a) (software a) (fingerprint a) (priority a) (use_candidate a) v (ice_controlling a) (network_cost a).
Definition set_controlling v a := mkA (username a) (message_integrity a) (error_code a) (channel_number a) (lifetime a) (xor_peer_address a) (data a) (realm a) (nonce a) (xor_relayed_address a) (xor_mapped_address a) (software a) (fingerprint a) (priority a) (use_candidate a) (ice_controlled a) v (network_cost a).
Definition set_cost v a := mkA (username a) (message_integrity a) (error_code a) (channel_number a) (lifetime a) (xor_peer_address a) (data a) (realm a) (nonce a) (xor_relayed_address a) (xor_mapped_address a) (software a) (fingerprint a) (priority a) (use_candidate a) (ice_controlled a) (ice_controlling a) v.

(** [buf[i]] .. as a big-endian number of [n] bytes (n = 2, 4, 8) *)
Definition num (b : list Z) (i n : Z) : res Z := do s <- slice b i (i + n); Ok (fold_left (fun x y => x * 256 + y) s 0).

(** stun.rs:923-1074: one attribute; [b] starts at its type field, [off] is its offset.  The result:
    the attributes, the new msg_integrity_off, the new ignore_rest. *)
Definition one_attr (typ len : Z) (b tid : list Z) (off : Z) (a : attrs) (mio : Z) (ign : bool) : res (attrs * Z * bool) :=
  let keep x := Ok (x, mio, ign) in
  if typ =? 6 then do r <- from b 4; do s <- decode_str 513 r len; keep (set_username (Some s) a)
  else if typ =? 8 then
    if negb (len =? 20) then Err else do v <- slice b 4 24; Ok (set_integrity (Some v) a, off, true)
  else if typ =? 9 then
    if len <? 4 then Err else
    do b4 <- idx b 4; do b5 <- idx b 5; do b6 <- idx b 6;
    if negb (b4 =? 0) || negb (b5 =? 0) || negb (Z.land b6 248 =? 0) then Err else
    let cl := b6 * 100 in
    if negb ((300 <=? cl) && (cl <=? 699)) then Err else
    do b7 <- idx b 7; do r <- from b 8; do s <- decode_str 763 r (len - 4); keep (set_error (Some (cl + b7 mod 100, s)) a)
  else if typ =? 12 then
    if negb (len =? 4) then Err else
    do c <- num b 4 2; if negb ((16384 <=? c) && (c <=? 32767)) then Err else keep (set_channel (Some c) a)
  else if typ =? 13 then if negb (len =? 4) then Err else do v <- num b 4 4; keep (set_lifetime (Some v) a)
  else if typ =? 18 then do r <- from b 4; do v <- decode_xor r tid; keep (set_peer (Some v) a)
  else if typ =? 19 then do v <- slice b 4 (len + 4); keep (set_data (Some v) a)
  else if typ =? 20 then do r <- from b 4; do s <- decode_str 763 r len; keep (set_realm (Some s) a)
  else if typ =? 21 then do r <- from b 4; do s <- decode_str 763 r len; keep (set_nonce (Some s) a)
  else if typ =? 22 then do r <- from b 4; do v <- decode_xor r tid; keep (set_relayed (Some v) a)
  else if typ =? 32 then do r <- from b 4; do v <- decode_xor r tid; keep (set_mapped (Some v) a)
  else if typ =? 34 then do r <- from b 4; do s <- decode_str 763 r len; keep (set_software (Some s) a)
  else if typ =? 36 then if negb (len =? 4) then Err else do v <- num b 4 4; keep (set_priority (Some v) a)
  else if typ =? 37 then if negb (len =? 0) then Err else keep (set_use a)
  else if typ =? 32808 then if negb (len =? 4) then Err else do v <- num b 4 4; keep (set_fingerprint (Some v) a)
  else if typ =? 32809 then if negb (len =? 8) then Err else do v <- num b 4 8; keep (set_controlled (Some v) a)
  else if typ =? 32810 then if negb (len =? 8) then Err else do v <- num b 4 8; keep (set_controlling (Some v) a)
  else if typ =? 49239 then if negb (len =? 4) then keep a else do i <- num b 4 2; do c <- num b 6 2; keep (set_cost (Some (i, c)) a)
  else keep a. (* 1, 10, 32803 and any other type: a warning at most *)

(** stun.rs:891-1083 *)
Fixpoint attrs_parse (fuel : nat) (b tid : list Z) (off : Z) (a : attrs) (mio : Z) (ign : bool) : res (attrs * Z) :=
  match fuel with
  | O => Panic
  | S f =>
      if zlen b =? 0 then Ok (a, mio) else
      do b1 <- idx b 1; do b0 <- idx b 0; do b3 <- idx b 3; do b2 <- idx b 2;
      let typ := rd16 b0 b1 in let len := rd16 b2 b3 in
      if zlen b <? 4 then Panic else
      if zlen b - 4 <? len then Err else
      do r <- (if negb ign || (typ =? 32808) then one_attr typ len b tid off a mio ign else Ok (a, mio, ign));
      let '(a, mio, ign) := r in
      let pl := len + calculate_pad len in
      do b <- from b (4 + pl);
      attrs_parse f b tid (off + 4 + pl) a mio ign
  end.

(** stun.rs:657-673: up to the first colon, and what follows it (not empty) *)
Fixpoint split_colon (l : list Z) : option (list Z * list Z) :=
  match l with
  | [] => None
  | c :: r => if c =? 58 then Some ([], r) else match split_colon r with Some (x, y) => Some (c :: x, y) | None => None end
  end.
Definition split_username (a : attrs) : option (list Z * list Z) :=
  match username a with
  | None => None
  | Some v => match split_colon v with Some (x, []) => None | o => o end
  end.

Definition eqb_bytes (a b : list Z) : bool := (zlen a =? zlen b) && forallb (fun '(x, y) => x =? y) (combine a b).
Definition is_none {A} (o : option A) : bool := match o with None => true | Some _ => false end.
Definition is_binding (m : method) : bool := match m with Binding => true | _ => false end.
(** stun.rs:121-201 *)
Definition parse (b : list Z) : res msg :=
  if zlen b <? 4 then Err else
  do b0 <- idx b 0; do b1 <- idx b 1; do b2 <- idx b 2; do b3 <- idx b 3;
  let typ := Z.lor (Z.shiftl (Z.land b0 63) 8) b1 in
  let len := Z.lor (Z.shiftl b2 8) b3 in
  if 0 <? Z.land len 3 then Err else
  if negb (len + 20 =? zlen b) then Err else
  do mg <- slice b 4 8;
  if negb (eqb_bytes mg MAGIC) then Err else
  let cl := class_from_typ typ in
  let me := method_from_typ typ in
  do tid <- slice b 8 20;
  do rest <- from b 20;
  do r <- attrs_parse (S (length rest)) rest tid 0 attrs0 0 false;
  let '(a, mio) := r in
  do il <- (if 0 <? mio then do i <- upto b (mio + 20); Ok ((mio + 24) mod 65536, i) else Ok (0, []));
  let '(ilen, integ) := il in
  let ok := Ok (mkM me cl tid a integ ilen) in
  match is_binding me, cl with
  | true, Success => if mio =? 0 then Err else if is_none (xor_mapped_address a) then Err else ok
  | true, Request => if mio =? 0 then Err else if is_none (split_username a) then Err else if is_none (priority a) then Err else ok
  | _, _ => ok
  end.

(** stun.rs:392-407; ct_eq of slices of equal length *)
Definition verify (P : prims) (m : msg) (password : list Z) : res bool :=
  match message_integrity (m_attrs m) with
  | None => Ok false
  | Some integ =>
      do a <- upto (integrity m) 2;
      do b <- from (integrity m) 4;
      Ok (eqb_bytes (hmac P password (a ++ [integrity_len m / 256 mod 256; integrity_len m mod 256] ++ b)) integ)
  end.

(** stun.rs:344-388 *)
Definition binding_request (user tid : list Z) (controlling : bool) (tie prio : Z) (use : bool) : msg :=
  let a := set_priority (Some prio) (set_username (Some user) attrs0) in
  let a := if use then set_use a else a in
  mkM Binding Request tid (if controlling then set_controlling (Some tie) a else set_controlled (Some tie) a) [] 0.
Definition binding_reply (tid : list Z) (mapped : addr) : msg :=
  mkM Binding Success tid (set_mapped (Some mapped) attrs0) [] 0.
(* "Role Conflict" *)
Definition binding_role_conflict_reply (tid : list Z) : msg :=
  mkM Binding Failure tid (set_error (Some (487, [82; 111; 108; 101; 32; 67; 111; 110; 102; 108; 105; 99; 116])) attrs0) [] 0.

(** What a STUN message is (RFC 5389 sections 6, 15 and RFC 8445 section 16), without reference to the code. *)
From Verif Require Import Base StunModel.

(** An attribute: type, length of the value, the value, zero padding to a multiple of four bytes. *)
Definition padding (n : Z) : Z := (- n) mod 4.
Definition tlv (x : Z * list Z) : list Z := be16 (fst x) ++ be16 (zlen (snd x)) ++ snd x ++ rep 0 (padding (zlen (snd x))).
(** XOR-MAPPED-ADDRESS: the port xored with the first two bytes of the magic cookie, the address with the cookie
    followed by the transaction id. *)
Definition key (tid : list Z) (i : nat) : Z := nth i ([33; 18; 164; 66] ++ tid) 0.
Definition xors (tid ip : list Z) : list Z := map (fun i => Z.lxor (nth i ip 0) (key tid i)) (seq 0 (length ip)).
Definition xaddr (tid : list Z) (a : addr) : list Z :=
  match a with
  | V4 ip port => [0; 1; Z.lxor (port / 256) 33; Z.lxor (port mod 256) 18] ++ xors tid ip
  | V6 ip port => [0; 2; Z.lxor (port / 256) 33; Z.lxor (port mod 256) 18] ++ xors tid ip
  end.
Definition opt {A} (ty : Z) (f : A -> list Z) (o : option A) : list (Z * list Z) := match o with Some v => [(ty, f v)] | None => [] end.
(** The attributes of a message on the wire: USERNAME 6, ERROR-CODE 9, CHANNEL-NUMBER 12, LIFETIME 13,
    XOR-PEER-ADDRESS 18, DATA 19, REALM 20, NONCE 21, XOR-RELAYED-ADDRESS 22, XOR-MAPPED-ADDRESS 32, PRIORITY 36,
    USE-CANDIDATE 37, ICE-CONTROLLED 0x8029, ICE-CONTROLLING 0x802a. *)
Definition items (a : attrs) (tid : list Z) : list (Z * list Z) :=
  opt 6 (fun v => v) (username a) ++ opt 32809 be64 (ice_controlled a) ++ opt 32810 be64 (ice_controlling a)
  ++ opt 36 be32 (priority a) ++ opt 32 (xaddr tid) (xor_mapped_address a) ++ (if use_candidate a then [(37, [])] else [])
  ++ opt 19 (fun v => v) (data a) ++ opt 22 (xaddr tid) (xor_relayed_address a) ++ opt 18 (xaddr tid) (xor_peer_address a)
  ++ opt 12 (fun v => be16 v ++ [0; 0]) (channel_number a) ++ opt 13 be32 (lifetime a)
  ++ opt 20 (fun v => v) (realm a) ++ opt 21 (fun v => v) (nonce a)
  ++ opt 9 (fun '(code, reason) => [0; 0; code / 100; code mod 100] ++ reason) (error_code a).

(** Message type: the class bits C1 (256) and C0 (16) and the method. *)
Definition type_code (c : class) (m : method) : Z :=
  (match c with Request => 0 | Indication => 16 | Success => 256 | Failure => 272 end)
  + (match m with Binding => 1 | Allocate => 3 | Refresh => 4 | Send => 6 | Data => 7 | CreatePermission => 8 | ChannelBind => 9 | UnknownMethod => 0 end).
Definition header (c : class) (m : method) (len : Z) (tid : list Z) : list Z :=
  be16 (type_code c m) ++ be16 len ++ [33; 18; 164; 66] ++ tid.
Definition body (l : list (Z * list Z)) : list Z := concat (map tlv l).
(** The whole message.  MESSAGE-INTEGRITY (8) is the HMAC of everything before it, computed with a header length
    that ends just after it; FINGERPRINT (0x8028) is the CRC-32 of everything before it xored with "STUN". *)
Definition wire (P : prims) (m : msg) (password : option (list Z)) : list Z :=
  let b := body (items (m_attrs m) (trans_id m)) in
  let mi := match password with
            | Some pw => tlv (8, hmac P pw (header (m_class m) (m_method m) (zlen b + 24) (trans_id m) ++ b))
            | None => []
            end in
  let h := header (m_class m) (m_method m) (zlen b + zlen mi + 8) (trans_id m) in
  h ++ b ++ mi ++ tlv (32808, be32 (Z.lxor (crc P (h ++ b ++ mi)) 1398035790)).

(** The messages the property ranges over: the values every field can have in the code, strings within the 128 bytes
    the writer accepts, error codes 300..699 and channel numbers 0x4000..0x7fff (the ranges of the RFCs). *)
Definition addr_ok (a : addr) : Prop :=
  match a with
  | V4 ip port => bytes_ok ip /\ zlen ip = 4 /\ 0 <= port < 65536
  | V6 ip port => bytes_ok ip /\ zlen ip = 16 /\ 0 <= port < 65536
  end.
Definition all {A} (P : A -> Prop) (o : option A) : Prop := match o with Some v => P v | None => True end.
Definition text_ok (max : Z) (v : list Z) : Prop := bytes_ok v /\ utf8 v = true /\ zlen v <= max.
Definition attrs_ok (a : attrs) : Prop :=
  all (text_ok 128) (username a) /\ all (fun v => 0 <= v < U64) (ice_controlled a) /\ all (fun v => 0 <= v < U64) (ice_controlling a)
  /\ all (fun v => 0 <= v < U32) (priority a) /\ all addr_ok (xor_mapped_address a)
  /\ all (fun v => bytes_ok v /\ zlen v < 65536) (data a) /\ all addr_ok (xor_relayed_address a) /\ all addr_ok (xor_peer_address a)
  /\ all (fun v => 16384 <= v < 32768) (channel_number a) /\ all (fun v => 0 <= v < U32) (lifetime a)
  /\ all (text_ok 128) (realm a) /\ all (text_ok 128) (nonce a)
  /\ all (fun '(code, reason) => 300 <= code < 700 /\ text_ok 128 reason) (error_code a).
Definition prims_ok (P : prims) : Prop := (forall k b, zlen (hmac P k b) = 20 /\ bytes_ok (hmac P k b)) /\ (forall b, 0 <= crc P b < U32).

(** The bytes of received attributes: like [body], but padding bytes may have any value. *)
Inductive Body : list (Z * list Z) -> list Z -> Prop :=
| BNil : Body [] []
| BCons ty v pad l b : 0 <= ty < 65536 -> zlen v < 65536 -> bytes_ok v -> zlen pad = padding (zlen v) -> Body l b ->
    Body ((ty, v) :: l) (be16 ty ++ be16 (zlen v) ++ v ++ pad ++ b).

(** What a binding request (a user name with a colon, a priority) and a binding response (the mapped address) must carry. *)
Definition demanded (c : class) (m : method) (a : attrs) : Prop :=
  match m, c with
  | Binding, Request => (exists x y, username a = Some (x ++ 58 :: y) /\ ~ In 58 x /\ y <> []) /\ priority a <> None
  | Binding, Success => xor_mapped_address a <> None
  | _, _ => True
  end.
(** The fields the writer never writes are empty. *)
Definition plain (a : attrs) : Prop := message_integrity a = None /\ fingerprint a = None /\ software a = None /\ network_cost a = None.
Definition same_attrs (a b : attrs) : Prop :=
  username a = username b /\ error_code a = error_code b /\ channel_number a = channel_number b /\ lifetime a = lifetime b
  /\ xor_peer_address a = xor_peer_address b /\ data a = data b /\ realm a = realm b /\ nonce a = nonce b
  /\ xor_relayed_address a = xor_relayed_address b /\ xor_mapped_address a = xor_mapped_address b /\ priority a = priority b
  /\ use_candidate a = use_candidate b /\ ice_controlled a = ice_controlled b /\ ice_controlling a = ice_controlling b
  /\ software a = software b /\ network_cost a = network_cost b.

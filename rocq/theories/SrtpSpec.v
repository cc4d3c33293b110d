(** What RFC 3711, RFC 7714 and RFC 5764 say about SRTP packets, IVs, keys, written with numbers
    and concatenation only. *)
From Verif Require Import Base SrtpModel.

(** What is assumed of the primitives: sizes, bytes, and that GCM open accepts exactly the sealed
    texts (both are deterministic functions of key, IV and AAD). *)
Definition prims_ok (P : prims) : Prop :=
  (forall k b, zlen (aes P k b) = 16 /\ bytes_ok (aes P k b)) /\
  (forall k m, zlen (hmac P k m) = 20 /\ bytes_ok (hmac P k m)) /\
  (forall k iv a p, zlen (seal P k iv a p) = zlen p + 16 /\ bytes_ok (seal P k iv a p)) /\
  (forall k iv a c p, unseal P k iv a c = Some p <-> bytes_ok p /\ seal P k iv a p = c).

(** RFC 3711 4.1.1: IV = (k_s * 2^16) XOR (SSRC * 2^64) XOR (i * 2^16). *)
Definition rfc3711_iv (ks ssrc i : Z) : Z :=
  Z.lxor (Z.lxor (ks * 2 ^ 16) (ssrc * 2 ^ 64)) (i * 2 ^ 16).
(** RFC 7714 8.1: 00 00 || SSRC || ROC || SEQ, XOR salt, where ROC || SEQ is the 48-bit index. *)
Definition rfc7714_rtp_iv (salt ssrc i : Z) : Z := Z.lxor (ssrc * 2 ^ 48 + i) salt.
(** RFC 7714 9.1: 00 00 || SSRC || 00 00 || 0+SRTCP index, XOR salt. *)
Definition rfc7714_rtcp_iv (salt ssrc i : Z) : Z := Z.lxor (ssrc * 2 ^ 48 + i) salt.

(** RFC 3711 3.1, RFC 7714 8: the SRTP packet for the clear [hdr] and [payload]. *)
Definition srtp_packet (P : prims) (d : derived) (hdr payload : list Z) (ssrc index : Z) : list Z :=
  match d with
  | Cm auth salt key =>
      let body := hdr ++ ctr P key (ben 16 (rfc3711_iv (rdn salt) ssrc index)) payload in
      body ++ firstn 10 (hmac P auth (body ++ ben 4 (index / 2 ^ 16)))
  | Gcm salt key => hdr ++ seal P key (ben 12 (rfc7714_rtp_iv (rdn salt) ssrc index)) hdr payload
  end.

(** RFC 3711 3.4, RFC 7714 9: the SRTCP packet for a compound packet made of its first eight
    octets [hdr] (ending in the sender's [ssrc]) and the [rest], with the E bit set. *)
Definition srtcp_packet (P : prims) (d : derived) (hdr rest : list Z) (ssrc index : Z) : list Z :=
  let trailer := ben 4 (2 ^ 31 + index) in
  match d with
  | Cm auth salt key =>
      let body := hdr ++ ctr P key (ben 16 (rfc3711_iv (rdn salt) ssrc index)) rest ++ trailer in
      body ++ firstn 10 (hmac P auth body)
  | Gcm salt key =>
      hdr ++ seal P key (ben 12 (rfc7714_rtcp_iv (rdn salt) ssrc index)) (hdr ++ trailer) rest ++ trailer
  end.
(** The same without encryption (E bit clear): authenticated only. *)
Definition srtcp_plain (P : prims) (d : derived) (hdr rest : list Z) (ssrc index : Z) : list Z :=
  let trailer := ben 4 index in
  match d with
  | Cm auth salt key => (hdr ++ rest ++ trailer) ++ firstn 10 (hmac P auth (hdr ++ rest ++ trailer))
  | Gcm salt key =>
      hdr ++ rest ++ seal P key (ben 12 (rfc7714_rtcp_iv (rdn salt) ssrc index)) (hdr ++ rest ++ trailer) [] ++ trailer
  end.

(** RFC 3711 4.3.1/4.3.3 (key derivation rate 0): x = (label * 2^48) XOR salt as a 112-bit number,
    the session key is the first [n] octets of the AES-CM key stream with IV x * 2^16.  RFC 7714 11:
    a 96-bit salt is extended on the right with zeros to 112 bits. *)
Definition rfc_kdf (P : prims) (master salt : list Z) (label : Z) (n : nat) : list Z :=
  let salt112 := rdn salt * 2 ^ (8 * (14 - zlen salt)) in
  ctr P master (ben 16 (Z.lxor (label * 2 ^ 48) salt112 * 2 ^ 16)) (repeat 0 n).

(** RFC 5764 4.2: the exported material is client key, server key, client salt, server salt. *)
Definition rfc5764_split (kl sl : nat) (mat : list Z) : (list Z * list Z) * (list Z * list Z) :=
  let ck := firstn kl mat in let r := skipn kl mat in
  let sk := firstn kl r in let r := skipn kl r in
  let cs := firstn sl r in let ss := skipn sl r in
  ((ck, cs), (sk, ss)).

(** The derived parameters have the lengths the profile prescribes. *)
Definition derived_ok (d : derived) : Prop :=
  match d with
  | Cm auth salt key => zlen salt = 14 /\ bytes_ok salt
  | Gcm salt key => zlen salt = 12 /\ bytes_ok salt
  end.
Definition tag_len (d : derived) : Z := match d with Cm _ _ _ => 10 | Gcm _ _ => 16 end.

(** The inputs a packet gives to the block cipher: for counter mode the counter blocks of at most
    2^16 blocks (1 MiB), for GCM the IV itself.  Security of both modes rests on these being
    different for different packets under one key. *)
Definition nonces (d : derived) (ssrc index : Z) (b : list Z) : Prop :=
  match d with
  | Cm auth salt key => exists j, 0 <= j < 2 ^ 16 /\ b = ctr_block (ben 16 (rfc3711_iv (rdn salt) ssrc index)) j
  | Gcm salt key => b = ben 12 (rfc7714_rtp_iv (rdn salt) ssrc index)
  end.

(** RFC 3711 4.3.2: which label gives which session key; RFC 5764 4.1.2, RFC 7714 12: the sizes. *)
Definition session_keys (P : prims) (p : profile) (master salt : list Z) : derived * derived :=
  match p with
  | AES128_CM_SHA1_80 =>
      (Cm (rfc_kdf P master salt 1 20) (rfc_kdf P master salt 2 14) (rfc_kdf P master salt 0 16),
       Cm (rfc_kdf P master salt 4 20) (rfc_kdf P master salt 5 14) (rfc_kdf P master salt 3 16))
  | AEAD_AES_128_GCM =>
      (Gcm (rfc_kdf P master salt 2 12) (rfc_kdf P master salt 0 16), Gcm (rfc_kdf P master salt 5 12) (rfc_kdf P master salt 3 16))
  | AEAD_AES_256_GCM =>
      (Gcm (rfc_kdf P master salt 2 12) (rfc_kdf P master salt 0 32), Gcm (rfc_kdf P master salt 5 12) (rfc_kdf P master salt 3 32))
  end.
Definition master_len (p : profile) : nat := match p with AEAD_AES_256_GCM => 32%nat | _ => 16%nat end.
Definition salt_len (p : profile) : nat := match p with AES128_CM_SHA1_80 => 14%nat | _ => 12%nat end.

(** A toy provider that meets [prims_ok]: used only to show that the hypotheses can be met. *)
Definition sumz (l : list Z) : Z := fold_right Z.add 0 l.
Definition toy_tag (k iv a p : list Z) : list Z := repeat ((sumz k + 3 * sumz iv + 5 * sumz a + 7 * sumz p) mod 256) 16.
Definition toy : prims := mkPrims
  (fun k b => map (fun x => (x + sumz k + sumz b) mod 256) [1; 2; 3; 4; 5; 6; 7; 8; 9; 10; 11; 12; 13; 14; 15; 16])
  (fun k m => repeat ((sumz k + sumz m) mod 256) 20)
  (fun k iv a p => map (fun x => x mod 256) p ++ toy_tag k iv a (map (fun x => x mod 256) p))
  (fun k iv a c => let p := firstn (length c - 16) c in
     if forallb byteb p && eqb_list c (p ++ toy_tag k iv a p) then Some p else None).

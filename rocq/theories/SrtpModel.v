(** Model of src/rtp/srtp.rs (SrtpContext, SrtpKey, Derived) and of the profile functions in
    crates/proto/src/crypto/provider.rs.  The cipher and hash primitives are parameters ([prims]);
    the thin wrappers around them follow crypto/rust-crypto/src/srtp.rs.  AeadAes128Gcm and
    AeadAes256Gcm have textually identical code and the same lengths (except the key), so one
    definition models both ([Gcm]). *)
From Verif Require Import Base HeaderModel.

(** The primitives a crypto provider supplies: the AES block cipher (key, 16-byte block),
    HMAC-SHA1 (key, message), AES-GCM seal/open (key, iv, aad, text). *)
Record prims := mkPrims {
  aes : list Z -> list Z -> list Z;
  hmac : list Z -> list Z -> list Z;
  seal : list Z -> list Z -> list Z -> list Z -> list Z;
  unseal : list Z -> list Z -> list Z -> list Z -> option (list Z) }.

(** [dst[off..off+src.len()].copy_from_slice(src)]: panics when out of range. *)
Definition blit (dst : list Z) (off : Z) (src : list Z) : res (list Z) :=
  if (off <? 0) || (zlen dst <? off + zlen src) then Panic
  else Ok (firstn (Z.to_nat off) dst ++ src ++ skipn (Z.to_nat (off + zlen src)) dst).

Fixpoint xorl (a b : list Z) : list Z :=
  match a, b with x :: a', y :: b' => Z.lxor x y :: xorl a' b' | _, _ => [] end.
(** Big-endian number of a byte string, and its inverse at a given width. *)
Definition rdn (l : list Z) : Z := fold_left (fun a b => a * 256 + b) l 0.
Fixpoint ben (n : nat) (v : Z) : list Z :=
  match n with O => [] | S n' => ben n' (v / 256) ++ [v mod 256] end.

(** AES in counter mode, 128-bit big-endian counter: crypto/rust-crypto/src/srtp.rs:15,31-48
    (ctr::Ctr128BE); decrypt is encrypt (50-58).  [ctr_block iv j] is the j-th counter block. *)
Definition ctr_block (iv : list Z) (j : Z) : list Z := ben 16 ((rdn iv + j) mod 2 ^ 128).
Fixpoint ctr_from (P : prims) (key iv : list Z) (j : Z) (fuel : nat) (input : list Z) : list Z :=
  match fuel with
  | O => []
  | S f => match input with
           | [] => []
           | _ => xorl (firstn 16 input) (aes P key (ctr_block iv j)) ++ ctr_from P key iv (j + 1) f (skipn 16 input)
           end
  end.
Definition ctr (P : prims) (key iv input : list Z) : list Z := ctr_from P key iv 0 (length input) input.

(** provider.rs:319-343 rtp_hmac / rtp_verify (a constant-time comparison of slices is false for
    different lengths). *)
Definition roc_of (index : Z) : Z := index / 65536 mod U32.
Definition tag10 (P : prims) (key msg : list Z) : res (list Z) := upto (hmac P key msg) 10.
Definition eqb_list (a b : list Z) : bool := if list_eq_dec Z.eq_dec a b then true else false.
Definition rtp_hmac (P : prims) (key buf : list Z) (index hmac_start : Z) : res (list Z) :=
  do m <- upto buf hmac_start;
  do t <- tag10 P key (m ++ be32 (roc_of index));
  blit buf hmac_start t.
Definition rtp_verify (P : prims) (key buf : list Z) (index : Z) (cmp : list Z) : res bool :=
  do t <- tag10 P key (buf ++ be32 (roc_of index)); Ok (eqb_list t cmp).
(** provider.rs:361-381 rtcp_hmac / rtcp_verify. *)
Definition rtcp_hmac (P : prims) (key buf : list Z) (hmac_index : Z) : res (list Z) :=
  do m <- upto buf hmac_index; do t <- tag10 P key m; blit buf hmac_index t.
Definition rtcp_verify (P : prims) (key buf cmp : list Z) : res bool :=
  do t <- tag10 P key buf; Ok (eqb_list t cmp).

(** provider.rs:346-358 Aes128CmSha1_80::rtp_iv. *)
Definition cm_iv (salt : list Z) (ssrc index : Z) : list Z :=
  xorl (xorl (rep 0 4 ++ be32 ssrc ++ rep 0 8) (rep 0 6 ++ be64 index ++ rep 0 2)) (salt ++ rep 0 2).
(** provider.rs:404-421 (= 462-479) rtp_iv and 424-439 (= 482-497) rtcp_iv of the GCM profiles. *)
Definition gcm_iv (salt : list Z) (ssrc roc seq : Z) : list Z :=
  xorl (rep 0 2 ++ be32 ssrc ++ be32 roc ++ be16 seq) salt.
Definition gcm_rtcp_iv (salt : list Z) (ssrc index : Z) : list Z :=
  xorl (rep 0 2 ++ be32 ssrc ++ rep 0 2 ++ be32 index) salt.

(** srtp.rs:799-817 Derived: authentication key, salt and cipher key. *)
Inductive derived :=
| Cm (auth salt key : list Z)
| Gcm (salt key : list Z).
(** srtp.rs:186-199 SrtpContext. *)
Record ctx := mkCtx { c_rtp : derived; c_rtcp : derived; c_index : Z; c_scratch : list Z }.

(** rust-crypto/src/srtp.rs:76-99 (= 150-173) encrypt into [output] (the rest of which stays), and
    101-134 (= 175-208) decrypt: asserts, then overwrites the front of [output]. *)
Definition gcm_encrypt (P : prims) (key iv aad input output : list Z) : res (list Z) :=
  if zlen aad <? 12 then Panic else blit output 0 (seal P key iv aad input).
Definition gcm_decrypt (P : prims) (key iv : list Z) (aads : list (list Z)) (input output : list Z)
  : res (option (list Z * Z)) :=
  if zlen input <? 16 then Panic
  else match unseal P key iv (concat aads) input with
       | None => Ok None
       | Some p => do o <- blit output 0 p; Ok (Some (o, zlen p))
       end.

(** srtp.rs:206-301 protect_rtp. *)
Definition protect_rtp (P : prims) (c : ctx) (buf : list Z) (h : header) (index : Z) : res (list Z) :=
  let hlen := header_len h in
  do input <- from buf hlen;
  match c_rtp c with
  | Cm auth salt key =>
      let iv := cm_iv salt (ssrc h) index in
      let padding_needed := Z.max 0 (15 - 10) in
      let output := rep 0 (zlen buf + 10 + padding_needed) in
      do output <- blit output hlen (ctr P key iv input);
      do hd <- upto buf hlen;
      do output <- blit output 0 hd;
      do output <- rtp_hmac P auth output index (zlen buf);
      Ok (firstn (Z.to_nat (zlen buf + 10)) output)
  | Gcm salt key =>
      let iv := gcm_iv salt (ssrc h) (roc_of index) (sequence_number h) in
      do aad <- upto buf hlen;
      let output := rep 0 (zlen buf + 16) in
      do tail <- from output hlen;
      do tail <- gcm_encrypt P key iv aad input tail;
      do output <- blit output hlen tail;
      blit output 0 aad
  end.

(** [Vec::resize(n, 0)]. *)
Definition resize (l : list Z) (n : Z) : list Z :=
  firstn (Z.to_nat n) l ++ rep 0 (n - zlen l).

(** srtp.rs:307-414 unprotect_rtp: the result and the scratch buffer afterwards. *)
Definition unprotect_rtp (P : prims) (c : ctx) (buf : list Z) (h : header) (index : Z)
  : res (option (list Z) * list Z) :=
  let sc := c_scratch c in
  match c_rtp c with
  | Cm auth salt key =>
      if zlen buf <? header_len h + 10 then Ok (None, sc)
      else
        let hmac_start := zlen buf - 10 in
        do m <- upto buf hmac_start;
        do t <- from buf hmac_start;
        do good <- rtp_verify P auth m index t;
        if negb good then Ok (None, sc)
        else
          let iv := cm_iv salt (ssrc h) index in
          do input <- slice buf (header_len h) hmac_start;
          do sc' <- blit (resize sc (zlen input + 15)) 0 (ctr P key iv input);
          do out <- upto sc' (zlen input);
          Ok (Some out, sc')
  | Gcm salt key =>
      if zlen buf <? header_len h + 16 then Ok (None, sc)
      else
        let iv := gcm_iv salt (ssrc h) (roc_of index) (sequence_number h) in
        do aad <- upto buf (header_len h);
        do input <- from buf (header_len h);
        let out_len := zlen input - 16 in
        let sc1 := resize sc out_len in
        do r <- gcm_decrypt P key iv [aad] input sc1;
        match r with
        | None => Ok (None, sc1)
        | Some (sc2, _) => do out <- upto sc2 out_len; Ok (Some out, sc2)
        end
  end.

(** srtp.rs:416-504 protect_rtcp: the packet and the next index. *)
Definition rd32_at (buf : list Z) (i : Z) : res Z :=
  do a <- idx buf i; do b <- idx buf (i + 1); do c <- idx buf (i + 2); do d <- idx buf (i + 3);
  Ok (rd32 a b c d).
Definition protect_rtcp (P : prims) (c : ctx) (buf : list Z) : res (list Z * ctx) :=
  let srtcp_index := c_index c in
  if U32 <=? srtcp_index + 1 then Panic
  else
    let c' := mkCtx (c_rtp c) (c_rtcp c) ((srtcp_index + 1) mod 2147483648) (c_scratch c) in
    let e_and_si := Z.lor 2147483648 srtcp_index in
    do ssrc <- rd32_at buf 4;
    match c_rtcp c with
    | Cm auth salt key =>
        let iv := cm_iv salt ssrc srtcp_index in
        let final_size := zlen buf + 4 + 10 in
        let padding_needed := Z.max 0 (15 - (4 + 10)) in
        let output := rep 0 (final_size + padding_needed) in
        do hd <- slice buf 0 8;
        do output <- blit output 0 hd;
        do input <- from buf 8;
        do output <- blit output 8 (ctr P key iv input);
        do output <- blit output (zlen buf) (be32 e_and_si);
        do output <- rtcp_hmac P auth output (final_size - 10);
        Ok (firstn (Z.to_nat final_size) output, c')
    | Gcm salt key =>
        let iv := gcm_rtcp_iv salt ssrc srtcp_index in
        do hd <- upto buf 8;
        let aad := hd ++ be32 e_and_si in
        let output := rep 0 (zlen buf + 4 + 16) in
        do output <- blit output 0 hd;
        do input <- from buf 8;
        let enc_end := zlen input + 8 + 16 in
        do encout <- slice output 8 enc_end;
        do encout <- gcm_encrypt P key iv aad input encout;
        do output <- blit output 8 encout;
        do output <- blit output enc_end (be32 e_and_si);
        Ok (output, c')
    end.

(** srtp.rs:514-721 unprotect_rtcp. *)
Definition unprotect_rtcp (P : prims) (c : ctx) (buf : list Z) : res (option (list Z)) :=
  match c_rtcp c with
  | Cm auth salt key =>
      if zlen buf <? 8 + 4 + 10 then Ok None
      else
        let hmac_start := zlen buf - 10 in
        do m <- upto buf hmac_start;
        do t <- from buf hmac_start;
        do good <- rtcp_verify P auth m t;
        if negb good then Ok None
        else
          let idx_start := hmac_start - 4 in
          do e_and_si <- rd32_at buf idx_start;
          if negb (0 <? Z.land e_and_si 2147483648) then
            do p <- slice buf 0 idx_start; Ok (Some p)
          else
            let srtcp_index := Z.land e_and_si 2147483647 in
            do ssrc <- rd32_at buf 4;
            let iv := cm_iv salt ssrc srtcp_index in
            do input <- slice buf 8 idx_start;
            let output := rep 0 (zlen input + 8 + 15) in
            do hd <- slice buf 0 8;
            do output <- blit output 0 hd;
            do output <- blit output 8 (ctr P key iv input);
            Ok (Some (firstn (Z.to_nat (zlen input + 8)) output))
  | Gcm salt key =>
      if zlen buf <? 8 + 4 + 16 then Ok None
      else
        let idx_start := zlen buf - 4 in
        do e_and_si <- rd32_at buf idx_start;
        let is_encrypted := 0 <? Z.land e_and_si 2147483648 in
        do input <- (if is_encrypted then slice buf 8 idx_start else slice buf (idx_start - 16) idx_start);
        let srtcp_index := Z.land e_and_si 2147483647 in
        do ssrc <- rd32_at buf 4;
        let iv := gcm_rtcp_iv salt ssrc srtcp_index in
        do aads <- (if is_encrypted then do hd <- slice buf 0 8; Ok [hd ++ be32 e_and_si; []]
                    else do a <- slice buf 0 (idx_start - 16); do b <- from buf idx_start; Ok [a; b]);
        let output := rep 0 (zlen buf - 16 - 4) in
        do hd <- slice buf 0 8;
        do output <- blit output 0 hd;
        do tail <- from output 8;
        do r <- gcm_decrypt P key iv aads input tail;
        match r with
        | None => Ok None
        | Some (tail, count) =>
            do output <- blit output 8 tail;
            if is_encrypted then Ok (Some (firstn (Z.to_nat (8 + count)) output))
            else do p <- slice buf 0 (zlen buf - 4 - 16); do o <- blit output 0 p; Ok (Some o)
        end
  end.

(** srtp.rs:724-751 SrtpKey::new. *)
Definition srtp_key (ML SL : Z) (mat : list Z) (left : bool) : res (list Z * list Z) :=
  if negb (zlen mat =? ML * 2 + SL * 2) then Panic
  else
    let '(o0, o1) := if left then (0, 0) else (ML, SL) in
    do master <- slice mat o0 (o0 + ML);
    do salt <- slice mat (ML + ML + o1) (ML + ML + o1 + SL);
    Ok (master, salt).

(** srtp.rs:753-796 derive: the loop over AES rounds ([need] bytes still to produce).  Only the
    first 16 bytes of each round's output are used (784-792). *)
Definition derive_input (salt : list Z) (label round : Z) : list Z :=
  xorl (salt ++ rep 0 (14 - zlen salt)) (rep 0 7 ++ [label] ++ rep 0 6) ++ be16 round.
Fixpoint derive_loop (P : prims) (master salt : list Z) (label round : Z) (fuel need : nat) : list Z :=
  match fuel with
  | O => []
  | S f =>
      match need with
      | O => []
      | _ => firstn need (aes P master (derive_input salt label round))
             ++ derive_loop P master salt label (round + 1) f (need - 16)
      end
  end.
Definition derive (P : prims) (master salt : list Z) (label : Z) (n : nat) : list Z :=
  derive_loop P master salt label 0 n n.

(** srtp.rs:13-20 labels, 819-939 the derived keys of each profile. *)
Definition derive_cm (P : prims) (k : list Z * list Z) : derived * derived :=
  let '(m, s) := k in
  (Cm (derive P m s 1 20) (derive P m s 2 14) (derive P m s 0 16),
   Cm (derive P m s 4 20) (derive P m s 5 14) (derive P m s 3 16)).
Definition derive_gcm (P : prims) (keylen : nat) (k : list Z * list Z) : derived * derived :=
  let '(m, s) := k in
  (Gcm (derive P m s 2 12) (derive P m s 0 keylen), Gcm (derive P m s 5 12) (derive P m s 3 keylen)).

(** srtp.rs:46-105 SrtpContext::new (the scratch buffer is empty with reserved capacity). *)
Inductive profile := AES128_CM_SHA1_80 | AEAD_AES_128_GCM | AEAD_AES_256_GCM.
Definition new_ctx (P : prims) (p : profile) (mat : list Z) (left : bool) : res ctx :=
  match p with
  | AES128_CM_SHA1_80 => do k <- srtp_key 16 14 mat left; let '(a, b) := derive_cm P k in Ok (mkCtx a b 0 [])
  | AEAD_AES_128_GCM => do k <- srtp_key 16 12 mat left; let '(a, b) := derive_gcm P 16 k in Ok (mkCtx a b 0 [])
  | AEAD_AES_256_GCM => do k <- srtp_key 32 12 mat left; let '(a, b) := derive_gcm P 32 k in Ok (mkCtx a b 0 [])
  end.

(** session.rs:259-273 set_keying_material: the receiving and the sending context. *)
Definition keying (P : prims) (p : profile) (mat : list Z) (active : bool) : res (ctx * ctx) :=
  do rx <- new_ctx P p mat (negb active); do tx <- new_ctx P p mat active; Ok (rx, tx).

(** session.rs:950-986 poll_feedback (without the raw-packet log): the datagram, the remaining
    queue and the sending context.  [mtu] is the lower end of the configured range. *)
From Verif Require Import RtcpModel.
Definition poll_feedback (P : prims) (c : ctx) (mtu : Z) (q : list rtcp) : res (option (list Z) * list rtcp * ctx) :=
  match q with
  | [] => Ok (None, q, c)
  | _ =>
      if mtu <? 20 then Panic
      else
        let encryptable := (mtu - 20) / 4 * 4 in
        do w <- write_packet q encryptable;
        let '(bs, _, rest) := w in
        if zlen bs =? 0 then Ok (None, rest, c)
        else
          do r <- protect_rtcp P c bs;
          let '(out, c') := r in
          if zlen out <? mtu then Ok (Some out, rest, c') else Panic
  end.

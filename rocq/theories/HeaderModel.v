(** Model of src/rtp/header.rs (RtpHeader::write_to, parse, padding, RTX sequence number). *)
From Verif Require Import Base MtimeModel ExtModel.

(** header.rs:8-37.  [csrc] is the list of 15 slots. *)
Record header := mkH { version : Z; has_padding : bool; has_extension : bool; csrc_count : Z;
  marker : bool; payload_type : Z; sequence_number : Z; timestamp : Z; ssrc : Z; csrc : list Z;
  ext_vals : extvals; header_len : Z }.

(** header.rs:40-79 write_to.  [cap] is the length of the buffer; the result is the bytes written
    (the returned length is their number). *)
Definition write_header (cap : Z) (h : header) (m : extmap) : res (list Z) :=
  if 15 <? csrc_count h then Panic
  else if 127 <? payload_type h then Panic
  else
    let b0 := Z.lor (Z.lor (Z.lor 128 (if has_padding h then 32 else 0)) (if has_extension h then 16 else 0))
                    (csrc_count h) in
    let b1 := Z.lor (Z.land (payload_type h) 127) (if marker h then 128 else 0) in
    let ext_start := 12 + csrc_count h * 4 in
    do cs <- upto (csrc h) (csrc_count h);
    if cap <? ext_start + 4 then Panic
    else
      let f := form_of m in
      do eb <- write_exts 1 m (ext_vals h) f (cap - ext_start - 4);
      let pad := 4 - zlen eb mod 4 in
      let ext_len := if pad <? 4 then zlen eb + pad else zlen eb in
      if cap <? ext_start + 4 + ext_len then Panic
      else
        Ok ([b0; b1] ++ be16 (sequence_number h) ++ be32 (timestamp h) ++ be32 (ssrc h)
            ++ flat_map be32 cs ++ form_bytes f ++ be16 ((ext_len / 4) mod U16)
            ++ eb ++ rep 0 (if pad <? 4 then pad else 0)).

(** header.rs:160-169: the csrc loop over [n] entries from offset [o]. *)
Fixpoint read_csrc (n : nat) (o : Z) (b : list Z) : res (list Z) :=
  match n with
  | O => Ok []
  | S n' => do a <- idx b o; do c <- idx b (o + 1); do d <- idx b (o + 2); do e <- idx b (o + 3);
            do r <- read_csrc n' (o + 4) b; Ok (rd32 a c d e :: r)
  end.

(** header.rs:129-224 parse; [Err] is [None]. *)
Definition parse_header (E : Z) (buf : list Z) (m : extmap) : res header :=
  if zlen buf <? 12 then Err
  else
    do b0 <- idx buf 0;
    let version := Z.shiftr (Z.land b0 192) 6 in
    if negb (version =? 2) then Err
    else
      let pad := 0 <? Z.land b0 32 in
      let ext := 0 <? Z.land b0 16 in
      let cc := Z.land b0 15 in
      do b1 <- idx buf 1;
      do b2 <- idx buf 2; do b3 <- idx buf 3;
      do b4 <- idx buf 4; do b5 <- idx buf 5; do b6 <- idx buf 6; do b7 <- idx buf 7;
      do b8 <- idx buf 8; do b9 <- idx buf 9; do b10 <- idx buf 10; do b11 <- idx buf 11;
      do r1 <- from buf 12;
      if zlen r1 <? 4 * cc then Err
      else
        do cs <- read_csrc (Z.to_nat cc) 0 r1;
        do r2 <- from r1 (4 * cc);
        do er <- (if negb ext then Ok (ev0, r2)
                  else if zlen r2 <? 4 then Err
                  else
                    do f0 <- idx r2 0; do f1 <- idx r2 1;
                    match form_parse f0 f1 with
                    | None => Err
                    | Some f =>
                        do w0 <- idx r2 2; do w1 <- idx r2 3;
                        let ext_len := rd16 w0 w1 * 4 in
                        do r3 <- from r2 4;
                        if zlen r3 <? ext_len then Err
                        else
                          do eb <- upto r3 ext_len;
                          do e <- parse_exts (S (length eb)) E m f eb ev0;
                          do r4 <- from r3 ext_len;
                          Ok (e, r4)
                    end);
        Ok (mkH version pad ext cc (0 <? Z.land b1 128) (Z.land b1 127) (rd16 b2 b3)
                (rd32 b4 b5 b6 b7) (rd32 b8 b9 b10 b11) (cs ++ rep 0 (15 - cc)) (fst er)
                (zlen buf - zlen (snd er))).

(** header.rs:81-92 do_pad: the buffer after padding (bytes from [from] on; [from + pad] must fit). *)
Definition MAX_BLANK : Z := 240.
Definition do_pad (buf : list Z) (at_ pad : Z) : res (list Z) :=
  if 255 <? pad then Panic
  else
    do b0 <- idx buf 0;
    if zlen buf <? at_ + pad then Panic
    else if pad <? 1 then Panic   (* buf[from + pad - 1] with pad 0 would hit the header; never called so *)
    else
      do pre <- upto buf at_;
      do post <- from buf (at_ + pad);
      let buf1 := pre ++ rep 0 (pad - 1) ++ [pad mod 256] ++ post in
      Ok (lset buf1 0 (Z.lor b0 32)).

(** header.rs:95-116 create_padding_packet; division by a zero block size panics. *)
Definition create_padding_packet (buf : list Z) (hlen pad_len block : Z) : res (list Z * Z) :=
  if pad_len =? 0 then Ok (buf, 0)
  else if block =? 0 then Panic
  else
    let r := if pad_len mod block =? 0 then pad_len else (pad_len / block + 1) * block in
    let r := Z.min r MAX_BLANK in
    do b <- do_pad buf hlen r;
    Ok (b, r).

(** header.rs:120-127 unpad_payload; [Err] is [None]. *)
Definition unpad_payload (buf : list Z) : res (list Z) :=
  if zlen buf =? 0 then Ok buf
  else
    do p <- idx buf (zlen buf - 1);
    if zlen buf <? p then Err else upto buf (zlen buf - p).

(** header.rs:227-241 *)
Definition read_osn (buf : list Z) : option (Z * Z) :=   (* (sequence number, bytes consumed) *)
  match buf with a :: b :: _ => Some (rd16 a b, 2) | _ => None end.
Definition write_osn (seq : Z) : list Z := be16 (seq mod U16).

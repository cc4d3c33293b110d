(** Model of src/io/mod.rs: the classification of datagrams. *)
From Verif Require Import Base.

(** io/mod.rs:106-112 *)
Inductive kind := KStun | KDtls | KRtp | KRtcp.
(** io/mod.rs:114-151 MultiplexKind::try_from *)
Definition classify (value : list Z) : res kind :=
  if zlen value =? 0 then Err
  else do byte0 <- idx value 0;
       let len := zlen value in
       if (byte0 <? 2) && (20 <=? len) then Ok KStun
       else if (20 <=? byte0) && (byte0 <? 64) then Ok KDtls
       else if (128 <=? byte0) && (byte0 <? 192) && (2 <? len) then
         do byte1 <- idx value 1;
         let payload_type := Z.land byte1 127 in
         Ok (if payload_type <? 64 then KRtp
             else if (64 <=? payload_type) && (payload_type <? 96) then KRtcp
             else KRtp)
       else Err.

(** C14, C15: which headers are valid, and what padding should do. *)
From Verif Require Import Base MtimeModel ExtModel ExtSpec HeaderModel.

(** A header whose fields are in the range of their Rust types and of the wire format. *)
Record header_ok (h : header) : Prop := {
  hk_version : version h = 2;
  hk_cc : 0 <= csrc_count h <= 15;
  hk_csrc : length (csrc h) = 15%nat /\ Forall u32_ok (csrc h);
  hk_pt : 0 <= payload_type h <= 127;
  hk_seq : u16_ok (sequence_number h);
  hk_ts : u32_ok (timestamp h);
  hk_ssrc : u32_ok (ssrc h) }.

(** [g] carries the same information as [h]; the extension values are compared separately. *)
Record same_header (h g : header) : Prop := {
  sh_version : version g = version h;
  sh_pad : has_padding g = has_padding h;
  sh_ext : has_extension g = has_extension h;
  sh_cc : csrc_count g = csrc_count h;
  sh_marker : marker g = marker h;
  sh_pt : payload_type g = payload_type h;
  sh_seq : sequence_number g = sequence_number h;
  sh_ts : timestamp g = timestamp h;
  sh_ssrc : ssrc g = ssrc h;
  sh_csrc : firstn (Z.to_nat (csrc_count h)) (csrc g) = firstn (Z.to_nat (csrc_count h)) (csrc h) }.

(** The least multiple of [b] that is at least [n]. *)
Definition is_round_up (n b r : Z) : Prop :=
  (exists k, r = k * b) /\ n <= r /\ forall k, n <= k * b -> r <= k * b.

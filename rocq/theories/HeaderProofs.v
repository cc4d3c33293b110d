From Verif Require Import Base BaseFacts MtimeModel ExtModel ExtSpec ExtProofs ExtProofs2 HeaderModel HeaderSpec.

Lemma read_csrc_total : forall n o b, 0 <= o -> o + 4 * Z.of_nat n <= zlen b -> exists cs, read_csrc n o b = Ok cs.
Proof.
  induction n as [|n IH]; intros o b H1 H2; [eexists; reflexivity|]. cbn [read_csrc].
  repeat match goal with
  | |- context [idx ?b ?k] => let x := fresh "x" in let E := fresh in let I := fresh "I" in
      destruct (idx_ok b k) as (x & E & I); [lia|]; rewrite E; clear E; cbn [bind]
  end.
  destruct (IH (o + 4) b ltac:(lia) ltac:(lia)) as (cs & ->). eexists; reflexivity.
Qed.

Lemma parse_header_no_panic E buf m : bytes_ok buf -> parse_header E buf m <> Panic.
Proof.
  intro B. unfold parse_header. destruct (zlen buf <? 12) eqn:Q; [discriminate|].
  destruct (idx_ok buf 0 ltac:(lia)) as (b0 & E0 & I0). rewrite E0. cbn [bind].
  destruct (negb (Z.shiftr (Z.land b0 192) 6 =? 2)); [discriminate|].
  do 11 match goal with
  | |- context [idx ?b ?k] => let x := fresh "x" in let E := fresh in let I := fresh "I" in
      destruct (idx_ok b k) as (x & E & I); [lia|]; rewrite E; clear E; cbn [bind]
  end.
  rewrite from_ok by lia. cbn [bind]. set (r1 := skipn (Z.to_nat 12) buf).
  assert (bytes_ok r1) as B1 by (apply bytes_ok_skipn; exact B). clearbody r1.
  assert (0 <= Z.land b0 15) as CC by (apply Z.land_nonneg; lia).
  set (cc := Z.land b0 15) in *. clearbody cc.
  destruct (zlen r1 <? 4 * cc) eqn:Q1; [discriminate|].
  destruct (read_csrc_total (Z.to_nat cc) 0 r1 ltac:(lia) ltac:(lia)) as (cs & ->). cbn [bind].
  rewrite from_ok by lia. cbn [bind]. set (r2 := skipn (Z.to_nat (4 * cc)) r1).
  assert (bytes_ok r2) as B2 by (apply bytes_ok_skipn; exact B1). clearbody r2.
  match goal with |- bind ?r _ <> _ => assert (r <> Panic) as G; [|destruct r; cbn; congruence] end.
  destruct (negb (0 <? Z.land b0 16)); [discriminate|].
  destruct (zlen r2 <? 4) eqn:Q2; [discriminate|].
  do 2 match goal with
  | |- context [idx ?b ?k] => let x := fresh "x" in let E := fresh in let I := fresh "I" in
      destruct (idx_ok b k) as (x & E & I); [lia|]; rewrite E; clear E; cbn [bind]
  end.
  match goal with |- context [form_parse ?a ?b] => destruct (form_parse a b) as [f|]; [|discriminate] end.
  destruct (idx_ok r2 2 ltac:(lia)) as (w0 & W0 & _). rewrite W0. cbn [bind].
  destruct (idx_ok r2 3 ltac:(lia)) as (w1 & W1 & _). rewrite W1. cbn [bind].
  pose proof (rd16_range _ _ (idx_byte _ _ _ B2 W0) (idx_byte _ _ _ B2 W1)) as WR.
  rewrite from_ok by lia. cbn [bind]. set (r3 := skipn (Z.to_nat 4) r2).
  assert (bytes_ok r3) as B3 by (apply bytes_ok_skipn; exact B2). clearbody r3.
  destruct (zlen r3 <? rd16 w0 w1 * 4) eqn:Q3; [discriminate|].
  rewrite upto_ok by lia. cbn [bind].
  destruct (parse_exts_total E m f (S (length (firstn (Z.to_nat (rd16 w0 w1 * 4)) r3))) (firstn (Z.to_nat (rd16 w0 w1 * 4)) r3) ev0
     ltac:(apply bytes_ok_firstn; exact B3) ltac:(lia)) as (e' & ->). cbn [bind].
  rewrite from_ok by lia. discriminate.
Qed.

Lemma b0_bits (p x : bool) cc : 0 <= cc <= 15 ->
  let b := Z.lor (Z.lor (Z.lor 128 (if p then 32 else 0)) (if x then 16 else 0)) cc in
  byte_ok b /\ Z.shiftr (Z.land b 192) 6 = 2 /\ (0 <? Z.land b 32) = p /\ (0 <? Z.land b 16) = x /\ Z.land b 15 = cc.
Proof.
  intros H b. assert (In cc (zseq 0 16)) as I by (apply zseq_in; lia).
  assert (forallb (fun cc : Z => forallb (fun p : bool => forallb (fun x : bool =>
     let b := Z.lor (Z.lor (Z.lor 128 (if p then 32 else 0)) (if x then 16 else 0)) cc in
     byteb b && (Z.eqb (Z.shiftr (Z.land b 192) 6) 2) && Bool.eqb (0 <? Z.land b 32) p && Bool.eqb (0 <? Z.land b 16) x && Z.eqb (Z.land b 15) cc)
       [true; false]) [true; false]) (zseq 0 16) = true) as A by (vm_compute; reflexivity).
  rewrite forallb_forall in A. specialize (A cc I). rewrite forallb_forall in A.
  assert (forall v : bool, In v [true; false]) as IV by (intros []; cbn; auto).
  specialize (A p (IV p)). rewrite forallb_forall in A. specialize (A x (IV x)). cbv zeta in A. fold b in A.
  repeat apply andb_prop in A as [A ?]. repeat match goal with H : Bool.eqb _ _ = true |- _ => apply eqb_prop in H end.
  unfold byte_ok, byteb in *. repeat split; try assumption; lia.
Qed.
Lemma b1_bits (mk : bool) pt : 0 <= pt <= 127 ->
  let b := Z.lor (Z.land pt 127) (if mk then 128 else 0) in
  byte_ok b /\ (0 <? Z.land b 128) = mk /\ Z.land b 127 = pt.
Proof.
  intros H b. assert (In pt (zseq 0 128)) as I by (apply zseq_in; lia).
  assert (forallb (fun pt : Z => forallb (fun mk : bool =>
     let b := Z.lor (Z.land pt 127) (if mk then 128 else 0) in
     byteb b && Bool.eqb (0 <? Z.land b 128) mk && Z.eqb (Z.land b 127) pt)
       [true; false]) (zseq 0 128) = true) as A by (vm_compute; reflexivity).
  rewrite forallb_forall in A. specialize (A pt I). rewrite forallb_forall in A.
  assert (forall v : bool, In v [true; false]) as IV by (intros []; cbn; auto).
  specialize (A mk (IV mk)). cbv zeta in A. fold b in A.
  repeat apply andb_prop in A as [A ?]. repeat match goal with H : Bool.eqb _ _ = true |- _ => apply eqb_prop in H end.
  unfold byte_ok, byteb in *. repeat split; try assumption; lia.
Qed.

Lemma read_csrc_back rest : forall cs pre, Forall u32_ok cs ->
  read_csrc (length cs) (zlen pre) (pre ++ flat_map be32 cs ++ rest) = Ok cs.
Proof.
  induction cs as [|c cs IH]; intros pre F; [reflexivity|]. inversion F as [|? ? F1 F2]; subst.
  cbn [length read_csrc flat_map]. pose proof (zlen_nonneg pre).
  assert (read_csrc (length cs) (zlen pre + 4) (pre ++ (be32 c ++ flat_map be32 cs) ++ rest) = Ok cs) as RC.
  { specialize (IH (pre ++ be32 c) F2). rewrite <- !app_assoc in *.
    replace (zlen pre + 4) with (zlen (pre ++ be32 c)) by (rewrite zlen_app; change (zlen (be32 c)) with 4; lia). exact IH. }
  rewrite RC. clear RC IH. do 4 (rewrite (idx_app_r pre) by lia).
  replace (zlen pre - zlen pre) with 0 by lia. replace (zlen pre + 1 - zlen pre) with 1 by lia.
  replace (zlen pre + 2 - zlen pre) with 2 by lia. replace (zlen pre + 3 - zlen pre) with 3 by lia.
  unfold be32. cbn [app]. ridx.
  rewrite rd32_be32 by exact F1. reflexivity.
Qed.

Lemma flat_be32_len cs : zlen (flat_map be32 cs) = 4 * zlen cs.
Proof.
  induction cs as [|c cs IH]; [reflexivity|]. cbn [flat_map]. rewrite zlen_app, zlen_cons, IH.
  change (zlen (be32 c)) with 4. lia.
Qed.

Lemma form_rt f : match form_bytes f with [a; b] => form_parse a b = Some f | _ => False end.
Proof. destruct f; reflexivity. Qed.

Lemma customs_le m : length m = 16%nat -> 0 <= customs m <= 16.
Proof.
  intro L. unfold customs, zlen. split; [lia|].
  assert (forall (f : option ext -> bool) l, (length (filter f l) <= length l)%nat) as A.
  { intros f l. induction l; cbn; [lia|]. destruct (f a); cbn; lia. }
  pose proof (A (fun o => match o with Some (EUser _) => true | _ => false end) m). lia.
Qed.

Lemma header_roundtrip E cap h m payload : header_ok h -> has_extension h = true ->
  ev_ok (ext_vals h) -> map_ok m (ext_vals h) -> 16 + 4 * csrc_count h + room m + 3 <= cap ->
  exists bs h', write_header cap h m = Ok bs /\ bytes_ok bs /\ zlen bs mod 4 = 0 /\ zlen bs <= cap /\
    parse_header E (bs ++ payload) m = Ok h' /\ same_header h h' /\
    ext_vals h' = arrives vad_real E m (ext_vals h) /\ header_len h' = zlen bs /\
    csrc h' = firstn (Z.to_nat (csrc_count h)) (csrc h) ++ rep 0 (15 - csrc_count h).
Proof.
  intros [Kv Kc [Kl Kf] Kp Ks Kt Kr] HX EO MO CAP.
  destruct (exts_roundtrip E (ext_vals h) m (cap - (12 + csrc_count h * 4) - 4) EO MO ltac:(lia)) as (eb & W & B & LB & P).
  destruct MO as [ML _]. pose proof (customs_le m ML) as CL. unfold room in *.
  unfold write_header.
  destruct (15 <? csrc_count h) eqn:Q1; [lia|]. destruct (127 <? payload_type h) eqn:Q2; [lia|].
  rewrite upto_ok by (unfold zlen; lia). cbn [bind].
  destruct (cap <? 12 + csrc_count h * 4 + 4) eqn:Q3; [lia|]. rewrite W. cbn [bind].
  set (pad := 4 - zlen eb mod 4). assert (1 <= pad <= 4) as PR by (subst pad; dlia).
  set (ext_len := if pad <? 4 then zlen eb + pad else zlen eb).
  set (k := if pad <? 4 then pad else 0).
  assert (ext_len = zlen eb + k) as EL by (subst ext_len k; destruct (pad <? 4); lia).
  assert (ext_len mod 4 = 0) as EM.
  { subst ext_len. destruct (pad <? 4) eqn:Q; subst pad; dlia. }
  assert (0 <= k <= 3) as KR by (subst k; destruct (pad <? 4) eqn:Q; lia).
  clearbody ext_len k. clear pad PR.
  pose proof (zlen_nonneg eb) as NB.
  destruct (cap <? 12 + csrc_count h * 4 + 4 + ext_len) eqn:Q4; [lia|].
  assert (0 <= ext_len / 4 < U16) as WR by (unfold U16; dlia).
  rewrite (Z.mod_small (ext_len / 4)) by exact WR.
  set (cs := firstn (Z.to_nat (csrc_count h)) (csrc h)).
  assert (length cs = Z.to_nat (csrc_count h)) as CSL by (subst cs; rewrite firstn_length; lia).
  assert (zlen cs = csrc_count h) as CSZ by (unfold zlen; lia).
  assert (Forall u32_ok cs) as CSF by (subst cs; apply Forall_firstn; exact Kf).
  destruct (b0_bits (has_padding h) (has_extension h) (csrc_count h) Kc) as (B01 & B02 & B03 & B04 & B05).
  destruct (b1_bits (marker h) (payload_type h) Kp) as (B11 & B12 & B13).
  set (b0 := Z.lor _ (csrc_count h)) in *. set (b1 := Z.lor (Z.land (payload_type h) 127) _) in *. clearbody b0 b1.
  set (tail := eb ++ rep 0 k).
  assert (zlen tail = ext_len) as TL by (subst tail; rewrite zlen_app, zlen_rep by lia; lia).
  eexists. eexists (mkH 2 (has_padding h) true (csrc_count h) (marker h) (payload_type h) (sequence_number h)
                (timestamp h) (ssrc h) (cs ++ rep 0 (15 - csrc_count h)) (arrives vad_real E m (ext_vals h))
                (16 + 4 * csrc_count h + ext_len)).
  split; [reflexivity|].
  match goal with |- bytes_ok ?b /\ _ => set (bs := b) end.
  assert (zlen bs = 16 + 4 * csrc_count h + ext_len) as BL.
  { subst bs. rewrite !zlen_app, flat_be32_len, CSZ. try rewrite zlen_rep by lia. try rewrite TL.
    change (zlen [b0; b1]) with 2. change (zlen (be16 (sequence_number h))) with 2.
    change (zlen (be32 (timestamp h))) with 4. change (zlen (be32 (ssrc h))) with 4.
    change (zlen (be16 (ext_len / 4))) with 2.
    assert (zlen (form_bytes (form_of m)) = 2) as -> by (destruct (form_of m); reflexivity).
    lia. }
  split.
  { subst bs. try subst tail. repeat (apply bytes_ok_app; split); try apply be16_ok; try apply be32_ok; try exact B.
    - repeat constructor; try apply B01; try apply B11.
    - clear. induction cs as [|c cs IH]; [constructor|]. cbn [flat_map]. apply bytes_ok_app; split; [apply be32_ok|exact IH].
    - destruct (form_of m); repeat constructor; unfold byte_ok; lia.
    - apply Forall_forall. intros x Hx. apply repeat_spec in Hx. subst. unfold byte_ok. lia. }
  split; [rewrite BL; dlia|]. split; [lia|].
  split.
  { unfold parse_header. rewrite zlen_app, BL. pose proof (zlen_nonneg payload) as NP.
    destruct (16 + 4 * csrc_count h + ext_len + zlen payload <? 12) eqn:Q5; [lia|].
    assert (bs ++ payload = [b0; b1] ++ be16 (sequence_number h) ++ be32 (timestamp h) ++ be32 (ssrc h) ++
       flat_map be32 cs ++ form_bytes (form_of m) ++ be16 (ext_len / 4) ++ tail ++ payload) as EB.
    { subst bs tail. rewrite <- !app_assoc. reflexivity. }
    rewrite EB. clear EB. clearbody bs.
    set (r1 := flat_map be32 cs ++ form_bytes (form_of m) ++ be16 (ext_len / 4) ++ tail ++ payload).
    unfold be16, be32. cbn [app].
    ridx. rewrite B02. change (negb (2 =? 2)) with false. cbv iota.
    match goal with |- context [from (?a0 :: ?a1 :: ?a2 :: ?a3 :: ?a4 :: ?a5 :: ?a6 :: ?a7 :: ?a8 :: ?a9 :: ?a10 :: ?a11 :: r1) 12] =>
      change (a0 :: a1 :: a2 :: a3 :: a4 :: a5 :: a6 :: a7 :: a8 :: a9 :: a10 :: a11 :: r1) with ([a0; a1; a2; a3; a4; a5; a6; a7; a8; a9; a10; a11] ++ r1);
      change 12 with (zlen [a0; a1; a2; a3; a4; a5; a6; a7; a8; a9; a10; a11]) end.
    rewrite from_app. cbn [bind]. rewrite B05.
    assert (zlen r1 = 4 * csrc_count h + 4 + ext_len + zlen payload) as R1L.
    { subst r1. rewrite !zlen_app, flat_be32_len, CSZ, TL. change (zlen (be16 (ext_len / 4))) with 2.
      assert (zlen (form_bytes (form_of m)) = 2) as -> by (destruct (form_of m); reflexivity). lia. }
    destruct (zlen r1 <? 4 * csrc_count h) eqn:Q6; [lia|].
    rewrite <- CSL. subst r1.
    pose proof (read_csrc_back (form_bytes (form_of m) ++ be16 (ext_len / 4) ++ tail ++ payload) cs [] CSF) as RC.
    cbn [app] in RC. rewrite zlen_nil in RC. rewrite RC. cbn [bind].
    replace (4 * csrc_count h) with (zlen (flat_map be32 cs)) by (rewrite flat_be32_len; lia).
    rewrite from_app. cbn [bind]. rewrite B04, HX. cbn [negb].
    set (r2 := form_bytes (form_of m) ++ be16 (ext_len / 4) ++ tail ++ payload).
    pose proof (form_rt (form_of m)) as FR.
    destruct (form_bytes (form_of m)) as [|f0 [|f1 [|]]]; try contradiction.
    assert (zlen r2 = 4 + ext_len + zlen payload) as R2L.
    { subst r2. rewrite !zlen_app, TL. change (zlen (be16 (ext_len / 4))) with 2. change (zlen [f0; f1]) with 2. lia. }
    destruct (zlen r2 <? 4) eqn:Q7; [lia|]. subst r2. unfold be16. cbn [app]. ridx. rewrite FR. ridx.
    rewrite rd16_be16 by exact WR. replace (ext_len / 4 * 4) with ext_len by dlia.
    match goal with |- context [from (?a0 :: ?a1 :: ?a2 :: ?a3 :: ?r) 4] =>
      change (a0 :: a1 :: a2 :: a3 :: r) with ([a0; a1; a2; a3] ++ r); change 4 with (zlen [a0; a1; a2; a3]) at 1 end.
    rewrite from_app. cbn [bind]. rewrite zlen_app, TL.
    destruct (ext_len + zlen payload <? ext_len) eqn:Q8; [lia|].
    rewrite <- TL. rewrite upto_app. cbn [bind].
    assert (tail = eb ++ repeat 0 (Z.to_nat k)) as TE by reflexivity.
    assert (parse_exts (S (length tail)) E m (form_of m) tail ev0 = Ok (arrives vad_real E m (ext_vals h))) as PE.
    { rewrite TE at 2. apply P. rewrite TE, app_length, repeat_length. lia. }
    rewrite PE. cbn [bind]. rewrite from_app. cbn [bind fst snd].
    rewrite !rd16_be16, !rd32_be32 by assumption. rewrite B03, B12, B13, ?TL, ?B04, ?HX. f_equal. f_equal. lia. }
  split; [|split; [reflexivity|split; [cbn [header_len]; lia|reflexivity]]].
  constructor; cbn; auto.
  rewrite firstn_app. rewrite CSL, Nat.sub_diag. cbn [firstn]. rewrite app_nil_r. subst cs. rewrite firstn_firstn. f_equal. lia.
Qed.

(** * Padding *)
Lemma unpad_total buf : bytes_ok buf -> unpad_payload buf <> Panic /\
  forall p, unpad_payload buf = Ok p -> exists s, buf = p ++ s.
Proof.
  intro B. unfold unpad_payload. pose proof (zlen_nonneg buf). destruct (zlen buf =? 0) eqn:Q.
  { split; [discriminate|]. intros p H1. injection H1 as <-. exists []. rewrite app_nil_r. reflexivity. }
  destruct (idx_ok buf (zlen buf - 1) ltac:(lia)) as (b & E & I). rewrite E. cbn [bind].
  pose proof (idx_byte _ _ _ B E) as BB. unfold byte_ok in BB.
  destruct (zlen buf <? b) eqn:Q1; [split; [discriminate|discriminate]|].
  rewrite upto_ok by lia. split; [discriminate|]. intros p H1. injection H1 as <-.
  eexists. symmetry. apply firstn_skipn.
Qed.

Lemma unpad_padded payload n : 1 <= n <= 255 ->
  unpad_payload (payload ++ rep 0 (n - 1) ++ [n]) = Ok payload.
Proof.
  intro H. unfold unpad_payload. pose proof (zlen_nonneg payload).
  assert (zlen (payload ++ rep 0 (n - 1) ++ [n]) = zlen payload + n) as L.
  { rewrite !zlen_app, zlen_rep by lia. change (zlen [n]) with 1. lia. }
  rewrite L. destruct (zlen payload + n =? 0) eqn:Q; [lia|].
  rewrite app_assoc. rewrite idx_app_r by (rewrite zlen_app, zlen_rep by lia; lia).
  rewrite zlen_app, zlen_rep by lia. replace (zlen payload + n - 1 - (zlen payload + (n - 1))) with 0 by lia.
  ridx. destruct (zlen payload + n <? n) eqn:Q1; [lia|].
  replace (zlen payload + n - n) with (zlen payload) by lia.
  rewrite <- app_assoc. apply upto_app.
Qed.

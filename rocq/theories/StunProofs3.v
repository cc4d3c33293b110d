(** Reading back what was written. *)
From Verif Require Import Base BaseFacts Brute StunModel StunSpec StunProofs StunProofs2.

Definition AP (b tid : list Z) (off : Z) (a : attrs) (mio : Z) (ign : bool) := attrs_parse (S (length b)) b tid off a mio ign.
Lemma attrs_parse_fuel tid l : forall f b off a mio ign, Body l b -> (length b < f)%nat ->
  attrs_parse f b tid off a mio ign = AP b tid off a mio ign.
Proof.
  unfold AP.
  assert (forall f1 f2 b off a mio ign, Body l b -> (length b < f1)%nat -> (length b < f2)%nat -> attrs_parse f1 b tid off a mio ign = attrs_parse f2 b tid off a mio ign) as G.
  { induction l as [|[ty v] l IH]; intros f1 f2 b off a mio ign HB L1 L2; (destruct f1 as [|f1]; [lia|]); (destruct f2 as [|f2]; [lia|]).
    - inversion HB; subst. reflexivity.
    - inversion HB as [|? ? pad ? b' T V BV P HB']; subst. change (be16 ty ++ be16 (zlen v) ++ v ++ pad ++ b') with (item_bytes ty v pad b') in *.
      rewrite !attrs_parse_step by assumption. destruct (if negb ign || _ then _ else _) as [[[a' m'] i']| |]; cbn [bind]; [|reflexivity|reflexivity].
      assert (length b' + 4 <= length (item_bytes ty v pad b'))%nat by (unfold item_bytes; rewrite !app_length; cbn [be16 length]; lia).
      apply IH; [exact HB'|lia|lia]. }
  intros. apply G; [assumption|assumption|lia].
Qed.
Lemma tlv_item ty v rest : tlv (ty, v) ++ rest = item_bytes ty v (rep 0 (padding (zlen v))) rest.
Proof. unfold tlv, item_bytes. cbn [fst snd]. rewrite <- !app_assoc. reflexivity. Qed.
Lemma body_Body l : Forall (fun '(ty, v) => 0 <= ty < 65536 /\ zlen v < 65536 /\ bytes_ok v) l -> Body l (body l).
Proof.
  induction 1 as [|[ty v] l (T & V & B) _ IH]; [constructor|]. rewrite body_cons, tlv_item. constructor; try assumption.
  apply zlen_rep. pose proof (padding_range (zlen v)). lia.
Qed.
Lemma AP_step ty v l rest tid off a mio ign : 0 <= ty < 65536 -> zlen v < 65536 -> Body l rest ->
  AP (tlv (ty, v) ++ rest) tid off a mio ign =
  bind (if negb ign || (ty =? 32808) then one_attr ty (zlen v) (tlv (ty, v) ++ rest) tid off a mio ign else Ok (a, mio, ign))
       (fun '(a, mio, ign) => AP rest tid (off + zlen (tlv (ty, v))) a mio ign).
Proof.
  intros T V HB. unfold AP at 1. rewrite tlv_item. rewrite attrs_parse_step; [|exact T|exact V|apply zlen_rep; pose proof (padding_range (zlen v)); lia].
  destruct (if negb ign || _ then _ else _) as [[[a' m'] i']| |]; cbn [bind]; [|reflexivity|reflexivity]. apply attrs_parse_fuel with (l := l); [exact HB|].
  unfold item_bytes. rewrite !app_length. cbn [be16 length]. lia.
Qed.

(** Each attribute *)
Lemma from4 ty v rest : from (tlv (ty, v) ++ rest) 4 = Ok (v ++ rep 0 (padding (zlen v)) ++ rest).
Proof.
  assert (tlv (ty, v) ++ rest = (be16 ty ++ be16 (zlen v)) ++ v ++ rep 0 (padding (zlen v)) ++ rest) as -> by (unfold tlv; cbn [fst snd]; rewrite <- !app_assoc; reflexivity).
  change 4 with (zlen (be16 ty ++ be16 (zlen v))). apply from_app.
Qed.
Lemma decode_str_v max v rest : zlen v <= max -> utf8 v = true -> decode_str max (v ++ rest) (zlen v) = Ok v.
Proof. intros L U. unfold decode_str. replace (max <? zlen v) with false by lia. rewrite upto_app. cbn [bind]. rewrite U. reflexivity. Qed.
Lemma slice_v ty v rest : slice (tlv (ty, v) ++ rest) 4 (zlen v + 4) = Ok v.
Proof.
  assert (tlv (ty, v) ++ rest = (be16 ty ++ be16 (zlen v)) ++ v ++ rep 0 (padding (zlen v)) ++ rest) as -> by (unfold tlv; cbn [fst snd]; rewrite <- !app_assoc; reflexivity).
  rewrite Z.add_comm. apply slice_mid.
Qed.
Lemma num_v ty v rest n : n = zlen v -> num (tlv (ty, v) ++ rest) 4 n = Ok (fold_left (fun x y => x * 256 + y) v 0).
Proof. intros ->. unfold num. rewrite (Z.add_comm 4). rewrite slice_v. reflexivity. Qed.
Lemma fold_be32 x : 0 <= x < U32 -> fold_left (fun x y => x * 256 + y) (be32 x) 0 = x.
Proof. unfold U32, be32. cbn [fold_left]. intro. dlia. Qed.
Lemma fold_be16 x : 0 <= x < 65536 -> fold_left (fun x y => x * 256 + y) (be16 x) 0 = x.
Proof. unfold be16. cbn [fold_left]. intro. dlia. Qed.
Lemma fold_be64 x : 0 <= x < U64 -> fold_left (fun x y => x * 256 + y) (be64 x) 0 = x.
Proof.
  unfold U64. intro H. unfold be64. rewrite fold_left_app, fold_be32 by (unfold U32; dlia). unfold be32. cbn [fold_left]. dlia.
Qed.
Lemma xor_with_invol k : forall ip, (length ip <= length k)%nat -> xor_with k (xor_with k ip) = ip.
Proof.
  induction k as [|y k IH]; intros [|x ip] L; cbn [length] in L; try lia; try reflexivity. unfold xor_with in *. cbn [combine map]. rewrite (IH ip) by lia.
  f_equal. rewrite Z.lxor_assoc, Z.lxor_nilpotent, Z.lxor_0_r. reflexivity.
Qed.
Lemma xor_with_len k : forall ip, (length ip <= length k)%nat -> length (xor_with k ip) = length ip.
Proof. intros ip L. unfold xor_with. rewrite map_length, combine_length. lia. Qed.
Lemma port_back p : 0 <= p < 65536 -> Z.lxor (rd16 (Z.lxor p 8466 / 256 mod 256) (Z.lxor p 8466 mod 256)) 8466 = p.
Proof.
  intro H. rewrite rd16_be16 by (unfold U16; apply (lxor_lt p 8466 16); cbn; lia). rewrite Z.lxor_assoc, Z.lxor_nilpotent, Z.lxor_0_r. reflexivity.
Qed.
Lemma decode_xor_v a tid rest : addr_ok a -> zlen tid = 12 -> decode_xor (xaddr tid a ++ rest) tid = Ok a.
Proof.
  intros A T. rewrite <- encode_xor_xaddr by assumption. unfold decode_xor.
  destruct a as [ip port|ip port]; destruct A as (B & L & R); unfold encode_xor; cbn [app be16].
  - set (x := xor_with MAGIC ip). assert (length x = 4%nat) as LX by (unfold x; rewrite xor_with_len; unfold zlen in L; cbn [MAGIC length]; lia).
    assert (zlen x = 4) as LZ by (unfold zlen; lia).
    match goal with |- context[zlen ?l <? 4] => assert ((zlen l <? 4) = false) as -> by (rewrite !zlen_cons, zlen_app; pose proof (zlen_nonneg rest); lia) end.
    set (p0 := Z.lxor port 8466 / 256 mod 256). set (p1 := Z.lxor port 8466 mod 256).
    assert (from (0 :: 1 :: p0 :: p1 :: x ++ rest) 4 = Ok (x ++ rest)) as ->.
    { apply (from_app [0; 1; p0; p1] (x ++ rest)). }
    change (idx (0 :: 1 :: p0 :: p1 :: x ++ rest) 2) with (Ok p0). change (idx (0 :: 1 :: p0 :: p1 :: x ++ rest) 3) with (Ok p1). change (idx (0 :: 1 :: p0 :: p1 :: x ++ rest) 1) with (Ok 1).
    cbn [bind]. replace ((1 =? 1) && (4 <=? zlen (x ++ rest))) with true by (rewrite zlen_app; pose proof (zlen_nonneg rest); lia).
    rewrite firstn_app, LX, Nat.sub_diag, firstn_O, app_nil_r. rewrite <- LX, firstn_all. unfold x, p0, p1. rewrite xor_with_invol by (unfold zlen in L; cbn [MAGIC length]; lia).
    rewrite port_back by exact R. reflexivity.
  - set (x := xor_with (MAGIC ++ tid) ip). assert (length ip <= length (MAGIC ++ tid))%nat as LK by (rewrite app_length; cbn [MAGIC length]; unfold zlen in *; lia).
    assert (length x = 16%nat) as LX by (unfold x; rewrite xor_with_len by exact LK; unfold zlen in L; lia).
    assert (zlen x = 16) as LZ by (unfold zlen; lia).
    match goal with |- context[zlen ?l <? 4] => assert ((zlen l <? 4) = false) as -> by (rewrite !zlen_cons, zlen_app; pose proof (zlen_nonneg rest); lia) end.
    set (p0 := Z.lxor port 8466 / 256 mod 256). set (p1 := Z.lxor port 8466 mod 256).
    assert (from (0 :: 2 :: p0 :: p1 :: x ++ rest) 4 = Ok (x ++ rest)) as ->.
    { apply (from_app [0; 2; p0; p1] (x ++ rest)). }
    change (idx (0 :: 2 :: p0 :: p1 :: x ++ rest) 2) with (Ok p0). change (idx (0 :: 2 :: p0 :: p1 :: x ++ rest) 3) with (Ok p1). change (idx (0 :: 2 :: p0 :: p1 :: x ++ rest) 1) with (Ok 2).
    cbn [bind]. change (2 =? 1) with false. cbn [andb]. replace ((2 =? 2) && (16 <=? zlen (x ++ rest))) with true by (rewrite zlen_app; pose proof (zlen_nonneg rest); lia).
    rewrite firstn_app, LX, Nat.sub_diag, firstn_O, app_nil_r. rewrite <- LX, firstn_all. unfold x, p0, p1. rewrite xor_with_invol by exact LK.
    rewrite port_back by exact R. reflexivity.
Qed.

Lemma AP_opt {A} ty (f : A -> list Z) (o : option A) (set : option A -> attrs -> attrs) (get : attrs -> option A) l rest tid off a mio :
  0 <= ty < 65536 -> Body l rest -> get a = None -> (get a = None -> set None a = a) ->
  all (fun v => zlen (f v) < 65536 /\ one_attr ty (zlen (f v)) (tlv (ty, f v) ++ rest) tid off a mio false = Ok (set (Some v) a, mio, false)) o ->
  AP (body (opt ty f o) ++ rest) tid off a mio false = AP rest tid (off + zlen (body (opt ty f o))) (set o a) mio false.
Proof.
  intros T HB G S H. destruct o as [v|].
  - destruct H as [L O]. unfold opt, body. cbn [map concat]. rewrite app_nil_r. rewrite AP_step with (l := l) by (assumption || lia). cbn [negb orb]. rewrite O. reflexivity.
  - unfold opt, body. cbn [map concat app]. rewrite zlen_nil, Z.add_0_r, (S G). reflexivity.
Qed.

Definition item_ok (x : Z * list Z) : Prop := 0 <= fst x < 65536 /\ zlen (snd x) < 65536 /\ bytes_ok (snd x).
Lemma Body_cat l1 l2 rest : Forall item_ok l1 -> Body l2 rest -> Body (l1 ++ l2) (body l1 ++ rest).
Proof.
  intros F HB. induction F as [|[ty v] l (T & V & B) _ IH]; [exact HB|]. cbn [fst snd] in *. rewrite body_cons, <- app_assoc, tlv_item. cbn [app]. constructor; try assumption.
  apply zlen_rep. pose proof (padding_range (zlen v)). lia.
Qed.
Lemma opt_ok {A} ty (f : A -> list Z) o : 0 <= ty < 65536 -> all (fun v => zlen (f v) < 65536 /\ bytes_ok (f v)) o -> Forall item_ok (opt ty f o).
Proof. intros T H. destruct o as [v|]; [|constructor]. constructor; [|constructor]. destruct H. split; cbn; auto. Qed.
Lemma xaddr_ok tid a : addr_ok a -> bytes_ok tid -> zlen tid = 12 -> zlen (xaddr tid a) < 65536 /\ bytes_ok (xaddr tid a).
Proof.
  intros A BT T. split; [rewrite xaddr_len by exact A; destruct a; cbn; lia|].
  assert (forall i, byte_ok (key tid i)) as K.
  { intro i. unfold key. destruct (nth_in_or_default i ([33; 18; 164; 66] ++ tid) 0) as [I|E]; [|rewrite E; red; lia].
    assert (bytes_ok ([33; 18; 164; 66] ++ tid)) as B by (apply bytes_ok_app; split; [repeat constructor; lia|exact BT]).
    unfold bytes_ok in B. rewrite Forall_forall in B. apply B. exact I. }
  assert (forall ip, bytes_ok ip -> bytes_ok (xors tid ip)) as X.
  { intros ip B. unfold xors. apply Forall_forall. intros x I. apply in_map_iff in I as (i & <- & I). apply in_seq in I. apply byte_lxor; [|apply K].
    unfold bytes_ok in B. rewrite Forall_forall in B. apply B. apply nth_In. lia. }
  destruct a as [ip port|ip port]; destruct A as (B & L & R); unfold xaddr; apply bytes_ok_app; (split; [|apply X; exact B]);
    (repeat constructor; try lia; apply byte_lxor; red; dlia).
Qed.
Lemma one_text ty v rest tid off a mio (set : option (list Z) -> attrs -> attrs) max :
  (forall b len, one_attr ty len b tid off a mio false = do r <- from b 4; do s <- decode_str max r len; Ok (set (Some s) a, mio, false)) ->
  zlen v <= max -> utf8 v = true -> one_attr ty (zlen v) (tlv (ty, v) ++ rest) tid off a mio false = Ok (set (Some v) a, mio, false).
Proof. intros H L U. rewrite H, from4. cbn [bind]. rewrite decode_str_v by assumption. reflexivity. Qed.
Lemma one_num ty n f v rest tid off a mio (set : option Z -> attrs -> attrs) :
  (forall b len, one_attr ty len b tid off a mio false = if negb (len =? n) then Err else do v <- num b 4 n; Ok (set (Some v) a, mio, false)) ->
  zlen (f v) = n -> fold_left (fun x y => x * 256 + y) (f v) 0 = v ->
  one_attr ty (zlen (f v)) (tlv (ty, f v) ++ rest) tid off a mio false = Ok (set (Some v) a, mio, false).
Proof. intros H L F. rewrite H. rewrite L, Z.eqb_refl. cbn [negb]. rewrite num_v by (symmetry; exact L). rewrite F. reflexivity. Qed.
Lemma one_addr ty v rest tid off a mio (set : option addr -> attrs -> attrs) :
  (forall b len, one_attr ty len b tid off a mio false = do r <- from b 4; do v <- decode_xor r tid; Ok (set (Some v) a, mio, false)) ->
  addr_ok v -> zlen tid = 12 -> one_attr ty (zlen (xaddr tid v)) (tlv (ty, xaddr tid v) ++ rest) tid off a mio false = Ok (set (Some v) a, mio, false).
Proof. intros H A T. rewrite H, from4. cbn [bind]. rewrite decode_xor_v by assumption. reflexivity. Qed.
Lemma one_data v rest tid off a mio : one_attr 19 (zlen v) (tlv (19, v) ++ rest) tid off a mio false = Ok (set_data (Some v) a, mio, false).
Proof.
  transitivity (do v' <- slice (tlv (19, v) ++ rest) 4 (zlen v + 4); Ok (set_data (Some v') a, mio, false)); [reflexivity|]. rewrite slice_v. reflexivity.
Qed.
Lemma one_channel v rest tid off a mio : 16384 <= v < 32768 ->
  one_attr 12 (zlen (be16 v ++ [0; 0])) (tlv (12, be16 v ++ [0; 0]) ++ rest) tid off a mio false = Ok (set_channel (Some v) a, mio, false).
Proof.
  intro R. set (b := tlv (12, be16 v ++ [0; 0]) ++ rest).
  transitivity (do c <- num b 4 2; if negb ((16384 <=? c) && (c <=? 32767)) then Err else Ok (set_channel (Some c) a, mio, false)); [reflexivity|].
  assert (num b 4 2 = Ok v) as ->.
  { assert (slice b 4 (4 + 2) = Ok (be16 v)) as S by exact (slice_mid (be16 12 ++ be16 4) (be16 v) ([0; 0] ++ rest)).
    unfold num. rewrite S. cbn [bind]. f_equal. apply fold_be16. lia. }
  cbn [bind]. replace (negb _) with false by lia. reflexivity.
Qed.
Lemma one_error c r rest tid off a mio : 300 <= c < 700 -> utf8 r = true -> zlen r <= 128 ->
  one_attr 9 (zlen ([0; 0; c / 100; c mod 100] ++ r)) (tlv (9, [0; 0; c / 100; c mod 100] ++ r) ++ rest) tid off a mio false = Ok (set_error (Some (c, r)) a, mio, false).
Proof.
  intros C U L. set (v := [0; 0; c / 100; c mod 100] ++ r). set (b := tlv (9, v) ++ rest).
  assert (zlen v = 4 + zlen r) as LV by (unfold v; rewrite zlen_app; reflexivity). pose proof (zlen_nonneg r).
  transitivity (if zlen v <? 4 then Err else
    do b4 <- idx b 4; do b5 <- idx b 5; do b6 <- idx b 6;
    if negb (b4 =? 0) || negb (b5 =? 0) || negb (Z.land b6 248 =? 0) then Err else
    let cl := b6 * 100 in
    if negb ((300 <=? cl) && (cl <=? 699)) then Err else
    do b7 <- idx b 7; do r <- from b 8; do s <- decode_str 763 r (zlen v - 4); Ok (set_error (Some (cl + b7 mod 100, s)) a, mio, false)); [reflexivity|].
  replace (zlen v <? 4) with false by lia.
  assert (exists x0 x1 x2 x3 t, b = x0 :: x1 :: x2 :: x3 :: 0 :: 0 :: c / 100 :: c mod 100 :: r ++ t) as (x0 & x1 & x2 & x3 & t & E).
  { exists (9 / 256 mod 256), (9 mod 256), (zlen v / 256 mod 256), (zlen v mod 256), (rep 0 (padding (zlen v)) ++ rest). unfold b, tlv, v. cbn [fst snd]. rewrite <- !app_assoc. reflexivity. }
  rewrite E. change (idx (x0 :: x1 :: x2 :: x3 :: 0 :: 0 :: c / 100 :: c mod 100 :: r ++ t) 4) with (Ok 0).
  change (idx (x0 :: x1 :: x2 :: x3 :: 0 :: 0 :: c / 100 :: c mod 100 :: r ++ t) 5) with (Ok 0).
  change (idx (x0 :: x1 :: x2 :: x3 :: 0 :: 0 :: c / 100 :: c mod 100 :: r ++ t) 6) with (Ok (c / 100)).
  change (idx (x0 :: x1 :: x2 :: x3 :: 0 :: 0 :: c / 100 :: c mod 100 :: r ++ t) 7) with (Ok (c mod 100)). cbn [bind].
  assert (3 <= c / 100 < 7) as R by dlia.
  assert (Z.land (c / 100) 248 = 0) as ->. { assert (c / 100 = 3 \/ c / 100 = 4 \/ c / 100 = 5 \/ c / 100 = 6) as [Q|[Q|[Q|Q]]] by lia; rewrite Q; reflexivity. }
  change (negb (0 =? 0) || negb (0 =? 0) || negb (0 =? 0)) with false. cbv zeta iota. replace (negb ((300 <=? c / 100 * 100) && (c / 100 * 100 <=? 699))) with false by lia.
  assert (from (x0 :: x1 :: x2 :: x3 :: 0 :: 0 :: c / 100 :: c mod 100 :: r ++ t) 8 = Ok (r ++ t)) as ->.
  { apply (from_app [x0; x1; x2; x3; 0; 0; c / 100; c mod 100] (r ++ t)). }
  cbn [bind]. replace (zlen v - 4) with (zlen r) by lia. rewrite decode_str_v by (assumption || lia). cbn [bind]. repeat f_equal. dlia.
Qed.
Lemma AP_use a l rest tid off a0 mio : Body l rest -> use_candidate a0 = false ->
  AP (body (if use_candidate a then [(37, [])] else []) ++ rest) tid off a0 mio false =
  AP rest tid (off + zlen (body (if use_candidate a then [(37, [])] else []))) (if use_candidate a then set_use a0 else a0) mio false.
Proof.
  intros HB U. destruct (use_candidate a).
  - unfold body. cbn [map concat]. rewrite app_nil_r. rewrite AP_step with (l := l) by (exact HB || (cbn; lia)). reflexivity.
  - unfold body. cbn [map concat app]. rewrite zlen_nil, Z.add_0_r. reflexivity.
Qed.

Ltac norm := cbn [attrs0 set_username set_controlled set_controlling set_priority set_mapped set_use set_data set_relayed set_peer set_channel set_lifetime set_realm set_nonce set_error
  username message_integrity error_code channel_number lifetime xor_peer_address data realm nonce xor_relayed_address xor_mapped_address software fingerprint priority use_candidate ice_controlled ice_controlling network_cost].
(** the attributes as read back: what was written, in fields that were empty *)
Lemma AP_items a tid l rest : attrs_ok a -> bytes_ok tid -> zlen tid = 12 -> Body l rest ->
  message_integrity a = None -> fingerprint a = None -> software a = None -> network_cost a = None ->
  AP (body (items a tid) ++ rest) tid 0 attrs0 0 false = AP rest tid (zlen (body (items a tid))) a 0 false.
Proof.
  intros (A1 & A2 & A3 & A4 & A5 & A6 & A7 & A8 & A9 & A10 & A11 & A12 & A13) BT T HB N1 N2 N3 N4. unfold items.
  pose proof (opt_ok 6 (fun v => v) (username a) ltac:(lia)) as O1.
  pose proof (opt_ok 32809 be64 (ice_controlled a) ltac:(lia)) as O2.
  pose proof (opt_ok 32810 be64 (ice_controlling a) ltac:(lia)) as O3.
  pose proof (opt_ok 36 be32 (priority a) ltac:(lia)) as O4.
  pose proof (opt_ok 32 (xaddr tid) (xor_mapped_address a) ltac:(lia)) as O5.
  assert (Forall item_ok (if use_candidate a then [(37, [])] else [])) as O6.
  { destruct (use_candidate a); [|constructor]. constructor; [|constructor]. split; [cbn; lia|]. split; [cbn; lia|constructor]. }
  pose proof (opt_ok 19 (fun v => v) (data a) ltac:(lia)) as O7.
  pose proof (opt_ok 22 (xaddr tid) (xor_relayed_address a) ltac:(lia)) as O8.
  pose proof (opt_ok 18 (xaddr tid) (xor_peer_address a) ltac:(lia)) as O9.
  pose proof (opt_ok 12 (fun v => be16 v ++ [0; 0]) (channel_number a) ltac:(lia)) as O10.
  pose proof (opt_ok 13 be32 (lifetime a) ltac:(lia)) as O11.
  pose proof (opt_ok 20 (fun v => v) (realm a) ltac:(lia)) as O12.
  pose proof (opt_ok 21 (fun v => v) (nonce a) ltac:(lia)) as O13.
  pose proof (opt_ok 9 (fun '(code, reason) => [0; 0; code / 100; code mod 100] ++ reason) (error_code a) ltac:(lia)) as O14.
  assert (forall o, all (text_ok 128) o -> all (fun v => zlen v < 65536 /\ bytes_ok v) o) as TX.
  { intros [v|]; [|auto]. intros (B & U & L). cbn. split; [lia|exact B]. }
  assert (forall o, all addr_ok o -> all (fun v => zlen (xaddr tid v) < 65536 /\ bytes_ok (xaddr tid v)) o) as AX.
  { intros [v|]; [|auto]. intros H. cbn in *. apply xaddr_ok; assumption. }
  specialize (O1 (TX _ A1)). specialize (O12 (TX _ A11)). specialize (O13 (TX _ A12)).
  specialize (O5 (AX _ A5)). specialize (O8 (AX _ A7)). specialize (O9 (AX _ A8)).
  assert (forall o : option Z, all (fun v => zlen (be64 v) < 65536 /\ bytes_ok (be64 v)) o) as N64 by (intros [v|]; cbn [all]; [split; [cbn; lia|apply be64_ok]|auto]).
  assert (forall o : option Z, all (fun v => zlen (be32 v) < 65536 /\ bytes_ok (be32 v)) o) as N32 by (intros [v|]; cbn [all]; [split; [cbn; lia|apply be32_ok]|auto]).
  specialize (O2 (N64 _)). specialize (O3 (N64 _)). specialize (O4 (N32 _)). specialize (O11 (N32 _)).
  assert (Forall item_ok (opt 19 (fun v => v) (data a))) as O7' by (apply O7; destruct (data a); cbn in *; tauto). clear O7.
  assert (Forall item_ok (opt 12 (fun v => be16 v ++ [0; 0]) (channel_number a))) as O10'.
  { apply O10. destruct (channel_number a); cbn [all]; [|auto]. split; [rewrite zlen_app; cbn; lia|]. apply bytes_ok_app. split; [apply be16_ok|repeat constructor; lia]. } clear O10.
  assert (Forall item_ok (opt 9 (fun '(code, reason) => [0; 0; code / 100; code mod 100] ++ reason) (error_code a))) as O14'.
  { apply O14. destruct (error_code a) as [[c r]|]; cbn [all] in *; [|auto]. destruct A13 as (C & B & U & L).
    split; [rewrite zlen_app; change (zlen [0; 0; c / 100; c mod 100]) with 4; lia|]. apply bytes_ok_app. split; [|exact B]. repeat constructor; dlia. } clear O14.
  clear TX AX N64 N32.
  rewrite !body_app, !zlen_app, <- !app_assoc.
  (* 1 username *)
  pose proof (Body_cat _ _ _ O14' HB) as B14. pose proof (Body_cat _ _ _ O13 B14) as B13. pose proof (Body_cat _ _ _ O12 B13) as B12.
  pose proof (Body_cat _ _ _ O11 B12) as B11. pose proof (Body_cat _ _ _ O10' B11) as B10. pose proof (Body_cat _ _ _ O9 B10) as B9.
  pose proof (Body_cat _ _ _ O8 B9) as B8. pose proof (Body_cat _ _ _ O7' B8) as B7. pose proof (Body_cat _ _ _ O6 B7) as B6.
  pose proof (Body_cat _ _ _ O5 B6) as B5. pose proof (Body_cat _ _ _ O4 B5) as B4. pose proof (Body_cat _ _ _ O3 B4) as B3. pose proof (Body_cat _ _ _ O2 B3) as B2.
  clear O1 O2 O3 O4 O5 O6 O7' O8 O9 O10' O11 O12 O13 O14'.
  rewrite (AP_opt 6 _ (username a) set_username username _ _ _ _ _ _ ltac:(lia) B2); [|reflexivity|intros; reflexivity|].
  2:{ destruct (username a) as [v|]; [|exact I]. destruct A1 as (B & U & L). split; [lia|]. apply one_text with (max := 513); [intros; reflexivity|lia|exact U]. }
  norm.
  rewrite (AP_opt 32809 _ (ice_controlled a) set_controlled ice_controlled _ _ _ _ _ _ ltac:(lia) B3); [|reflexivity|intros; reflexivity|].
  2:{ destruct (ice_controlled a) as [v|]; [|exact I]. split; [cbn; lia|]. apply (one_num 32809 8 be64); [intros; reflexivity|reflexivity|apply fold_be64, A2]. }
  norm.
  rewrite (AP_opt 32810 _ (ice_controlling a) set_controlling ice_controlling _ _ _ _ _ _ ltac:(lia) B4); [|reflexivity|intros; reflexivity|].
  2:{ destruct (ice_controlling a) as [v|]; [|exact I]. split; [cbn; lia|]. apply (one_num 32810 8 be64); [intros; reflexivity|reflexivity|apply fold_be64, A3]. }
  norm.
  rewrite (AP_opt 36 _ (priority a) set_priority priority _ _ _ _ _ _ ltac:(lia) B5); [|reflexivity|intros; reflexivity|].
  2:{ destruct (priority a) as [v|]; [|exact I]. split; [cbn; lia|]. apply (one_num 36 4 be32); [intros; reflexivity|reflexivity|apply fold_be32, A4]. }
  norm.
  rewrite (AP_opt 32 _ (xor_mapped_address a) set_mapped xor_mapped_address _ _ _ _ _ _ ltac:(lia) B6); [|reflexivity|intros; reflexivity|].
  2:{ destruct (xor_mapped_address a) as [v|]; [|exact I]. split; [apply xaddr_ok; assumption|]. apply one_addr; [intros; reflexivity|exact A5|exact T]. }
  norm.
  rewrite (AP_use _ _ _ _ _ _ _ B7) by reflexivity.
  match goal with |- context[if use_candidate a then set_use ?x else ?x] => assert ((if use_candidate a then set_use x else x) = mkA (username a) None None None None None None None None None (xor_mapped_address a) None None (priority a) (use_candidate a) (ice_controlled a) (ice_controlling a) None) as -> by (destruct (use_candidate a); reflexivity) end.
  norm.
  rewrite (AP_opt 19 _ (data a) set_data data _ _ _ _ _ _ ltac:(lia) B8); [|reflexivity|intros; reflexivity|].
  2:{ destruct (data a) as [v|]; [|exact I]. destruct A6 as [B L]. split; [exact L|]. apply one_data. }
  norm.
  rewrite (AP_opt 22 _ (xor_relayed_address a) set_relayed xor_relayed_address _ _ _ _ _ _ ltac:(lia) B9); [|reflexivity|intros; reflexivity|].
  2:{ destruct (xor_relayed_address a) as [v|]; [|exact I]. split; [apply xaddr_ok; assumption|]. apply one_addr; [intros; reflexivity|exact A7|exact T]. }
  norm.
  rewrite (AP_opt 18 _ (xor_peer_address a) set_peer xor_peer_address _ _ _ _ _ _ ltac:(lia) B10); [|reflexivity|intros; reflexivity|].
  2:{ destruct (xor_peer_address a) as [v|]; [|exact I]. split; [apply xaddr_ok; assumption|]. apply one_addr; [intros; reflexivity|exact A8|exact T]. }
  norm.
  rewrite (AP_opt 12 _ (channel_number a) set_channel channel_number _ _ _ _ _ _ ltac:(lia) B11); [|reflexivity|intros; reflexivity|].
  2:{ destruct (channel_number a) as [v|]; [|exact I]. split; [cbn; lia|]. apply one_channel. exact A9. }
  norm.
  rewrite (AP_opt 13 _ (lifetime a) set_lifetime lifetime _ _ _ _ _ _ ltac:(lia) B12); [|reflexivity|intros; reflexivity|].
  2:{ destruct (lifetime a) as [v|]; [|exact I]. split; [cbn; lia|]. apply (one_num 13 4 be32); [intros; reflexivity|reflexivity|apply fold_be32, A10]. }
  norm.
  rewrite (AP_opt 20 _ (realm a) set_realm realm _ _ _ _ _ _ ltac:(lia) B13); [|reflexivity|intros; reflexivity|].
  2:{ destruct (realm a) as [v|]; [|exact I]. destruct A11 as (B & U & L). split; [lia|]. apply one_text with (max := 763); [intros; reflexivity|lia|exact U]. }
  norm.
  rewrite (AP_opt 21 _ (nonce a) set_nonce nonce _ _ _ _ _ _ ltac:(lia) B14); [|reflexivity|intros; reflexivity|].
  2:{ destruct (nonce a) as [v|]; [|exact I]. destruct A12 as (B & U & L). split; [lia|]. apply one_text with (max := 763); [intros; reflexivity|lia|exact U]. }
  norm.
  rewrite (AP_opt 9 _ (error_code a) set_error error_code _ _ _ _ _ _ ltac:(lia) HB); [|reflexivity|intros; reflexivity|].
  2:{ destruct (error_code a) as [[c r]|]; [|exact I]. destruct A13 as (C & B & U & L).
      split; [rewrite zlen_app; change (zlen [0; 0; c / 100; c mod 100]) with 4; lia|]. apply one_error; assumption. }
  norm.
  match goal with |- AP _ _ ?x ?u _ _ = AP _ _ ?y ?w _ _ => replace x with y by lia; replace u with w; [reflexivity|] end.
  clear - N1 N2 N3 N4. destruct a as [f1 f2 f3 f4 f5 f6 f7 f8 f9 f10 f11 f12 f13 f14 f15 f16 f17 f18]. cbn [username message_integrity error_code channel_number lifetime xor_peer_address data realm nonce xor_relayed_address xor_mapped_address software fingerprint priority use_candidate ice_controlled ice_controlling network_cost] in *. subst. reflexivity.
Qed.

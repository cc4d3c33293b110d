(** Writing: [to_bytes] produces the layout of the specification. *)
From Verif Require Import Base BaseFacts Brute StunModel StunSpec.
Ltac spl := repeat match goal with |- _ /\ _ => split end.
Local Ltac zl := rewrite ?zlen_app, ?zlen_cons, ?zlen_nil.

Lemma zlen_be16 x : zlen (be16 x) = 2. Proof. reflexivity. Qed.
Lemma zlen_be32 x : zlen (be32 x) = 4. Proof. reflexivity. Qed.
Lemma zlen_be64 x : zlen (be64 x) = 8. Proof. reflexivity. Qed.
Lemma pad_eq n : 0 <= n -> calculate_pad n = padding n.
Proof. unfold calculate_pad, padding. intro. dlia. Qed.
Lemma padding_range n : 0 <= padding n < 4. Proof. unfold padding. dlia. Qed.
Lemma padding_4 n : n mod 4 = 0 -> padding n = 0. Proof. unfold padding. intro. dlia. Qed.
Lemma tlv_len x : zlen (tlv x) = 4 + zlen (snd x) + padding (zlen (snd x)).
Proof.
  unfold tlv. rewrite !zlen_app, !zlen_be16, zlen_rep; [lia|]. pose proof (padding_range (zlen (snd x))). lia.
Qed.
Lemma tlv_len4 x : zlen (tlv x) mod 4 = 0.
Proof. rewrite tlv_len. unfold padding. dlia. Qed.
Lemma tlv_pos x : 4 <= zlen (tlv x).
Proof. rewrite tlv_len. pose proof (padding_range (zlen (snd x))). pose proof (zlen_nonneg (snd x)). lia. Qed.
Lemma body_len4 l : zlen (body l) mod 4 = 0.
Proof.
  induction l as [|x l IH]; [reflexivity|]. unfold body in *. cbn [map concat]. rewrite zlen_app. pose proof (tlv_len4 x).
  rewrite Z.add_mod by lia. rewrite H, IH. reflexivity.
Qed.
Lemma body_app a b : body (a ++ b) = body a ++ body b.
Proof. unfold body. rewrite map_app, concat_app. reflexivity. Qed.
Lemma body_cons x l : body (x :: l) = tlv x ++ body l. Proof. reflexivity. Qed.

(** Text and fixed size attributes *)
Lemma put_fix_tlv ty v : zlen v mod 4 = 0 -> put_fix ty (Some v) = tlv (ty, v).
Proof. intro H. unfold put_fix, tlv. cbn [fst snd]. rewrite (padding_4 _ H), app_nil_r. reflexivity. Qed.
Lemma put_fix_opt {A} ty (f g : A -> list Z) o : all (fun v => f v = g v /\ zlen (g v) mod 4 = 0) o ->
  put_fix ty (omap f o) = body (opt ty g o).
Proof.
  intro H. destruct o as [v|]; [|reflexivity]. destruct H as [E L]. cbn [omap opt]. rewrite E, put_fix_tlv by exact L.
  unfold body. cbn [map concat]. rewrite app_nil_r. reflexivity.
Qed.
Lemma put_str_opt ty o : all (text_ok 128) o -> put_str ty o = Ok (body (opt ty (fun v => v) o)).
Proof.
  destruct o as [v|]; intro H; [|reflexivity]. destruct H as (B & U & L). unfold put_str, encode_str, encode_str_no_len, opt, body, tlv, pad_bytes.
  pose proof (zlen_nonneg v). replace (128 <? zlen v) with false by lia. cbn [bind map concat fst snd]. rewrite app_nil_r, pad_eq by lia.
  rewrite Z.mod_small by lia. rewrite <- app_assoc. reflexivity.
Qed.

Lemma lxor_lt x y n : 0 <= n -> 0 <= x < 2 ^ n -> 0 <= y < 2 ^ n -> 0 <= Z.lxor x y < 2 ^ n.
Proof.
  intros N X Y. assert (0 <= Z.lxor x y) as P by (apply Z.lxor_nonneg; lia). split; [exact P|].
  destruct (Z.eq_dec (Z.lxor x y) 0) as [->|NZ]; [lia|]. apply Z.log2_lt_pow2; [lia|].
  pose proof (Z.log2_lxor x y ltac:(lia) ltac:(lia)) as L.
  assert (n <> 0) by (intros ->; change (2 ^ 0) with 1 in *; replace x with 0 in * by lia; replace y with 0 in * by lia; cbn in NZ; congruence).
  assert (forall z, 0 <= z < 2 ^ n -> Z.log2 z < n) as G.
  { intros z Hz. destruct (Z.eq_dec z 0) as [->|]; [cbn; lia|]. apply Z.log2_lt_pow2; lia. }
  pose proof (G x X). pose proof (G y Y). lia.
Qed.
Lemma byte_lxor x y : byte_ok x -> byte_ok y -> byte_ok (Z.lxor x y).
Proof. unfold byte_ok. intros. apply (lxor_lt x y 8); cbn; lia. Qed.
(** The port *)
Lemma port_xor p : 0 <= p < 65536 -> be16 (Z.lxor p 8466) = [Z.lxor (p / 256) 33; Z.lxor (p mod 256) 18].
Proof.
  intro H.
  assert (Z.lxor p 8466 = Z.lxor (p / 256) 33 * 256 + Z.lxor (p mod 256) 18) as E.
  { assert (Z.lxor (Z.shiftl (p / 256) 8) (Z.shiftl 33 8) = Z.lxor (p / 256) 33 * 256) as S.
    { rewrite <- Z.shiftl_lxor, Z.shiftl_mul_pow2 by lia. reflexivity. }
    assert (0 <= p mod 256 < 2 ^ 8) as M by (cbn; dlia).
    assert (0 <= Z.lxor (p mod 256) 18 < 2 ^ 8) as M2 by (apply lxor_lt; cbn; dlia).
    assert (Z.lor (Z.shiftl (p / 256) 8) (p mod 256) = p) as P1.
    { rewrite (lor_add _ _ 8); [rewrite Z.shiftl_mul_pow2 by lia; cbn; dlia|lia|exact M|rewrite Z.shiftl_mul_pow2 by lia; apply Z.mod_mul; cbn; lia]. }
    assert (forall a b : Z, 0 <= b < 2 ^ 8 -> Z.lxor (Z.shiftl a 8) b = Z.shiftl a 8 + b) as NC.
    { intros a b Hb. symmetry. apply Z.add_nocarry_lxor. apply (land_disj _ _ 8); [lia|exact Hb|rewrite Z.shiftl_mul_pow2 by lia; apply Z.mod_mul; cbn; lia]. }
    transitivity (Z.lxor (Z.lxor (Z.shiftl (p / 256) 8) (p mod 256)) (Z.lxor (Z.shiftl 33 8) 18)).
    { f_equal. rewrite NC by exact M. rewrite Z.shiftl_mul_pow2 by lia. cbn. dlia. }
    rewrite Z.lxor_assoc, (Z.lxor_comm (p mod 256)), (Z.lxor_assoc (Z.shiftl 33 8)), <- Z.lxor_assoc, S.
    rewrite (Z.lxor_comm 18). rewrite <- (Z.shiftl_mul_pow2 _ 8) by lia. rewrite NC by exact M2. reflexivity. }
  assert (0 <= Z.lxor (p mod 256) 18 < 256) by (apply (lxor_lt _ _ 8); cbn; dlia).
  assert (0 <= Z.lxor (p / 256) 33 < 256) by (apply (lxor_lt _ _ 8); cbn; dlia).
  unfold be16. rewrite E. f_equal; [|f_equal]; dlia.
Qed.
Lemma xor_with_xors k : forall ip, (length ip <= length k)%nat -> xor_with k ip = map (fun i => Z.lxor (nth i ip 0) (nth i k 0)) (seq 0 (length ip)).
Proof.
  induction k as [|y k IH]; intros [|x ip] L; cbn [length] in *; try lia; try reflexivity.
  unfold xor_with in *. cbn [combine map seq nth]. f_equal. rewrite <- seq_shift, map_map. rewrite (IH ip) by lia. reflexivity.
Qed.
Lemma encode_xor_xaddr a tid : addr_ok a -> zlen tid = 12 -> encode_xor a tid = xaddr tid a.
Proof.
  intros H T. destruct a as [ip port|ip port]; destruct H as (B & L & R); unfold encode_xor, xaddr; rewrite port_xor by exact R; cbn [app];
    f_equal; f_equal; f_equal; f_equal; unfold xors, key.
  - rewrite xor_with_xors by (unfold zlen in L; unfold MAGIC; cbn [length]; lia). apply map_ext_in. intros i Hi. apply in_seq in Hi. f_equal.
    unfold MAGIC. rewrite app_nth1; [reflexivity|]. unfold zlen in L. cbn [length]. lia.
  - rewrite xor_with_xors by (unfold zlen in *; unfold MAGIC; rewrite app_length; cbn [length]; lia). reflexivity.
Qed.
Lemma xaddr_len tid a : addr_ok a -> zlen (xaddr tid a) = addr_len a.
Proof.
  destruct a as [ip port|ip port]; intros (B & L & R); unfold xaddr, xors; rewrite zlen_app, zlen_map; unfold zlen at 2; rewrite seq_length;
    fold (zlen ip); rewrite L; reflexivity.
Qed.

Lemma opt_addr ty tid o : all addr_ok o -> zlen tid = 12 -> put_fix ty (omap (fun v => encode_xor v tid) o) = body (opt ty (xaddr tid) o).
Proof.
  intros H T. apply put_fix_opt. destruct o as [w|]; [|exact I]. cbn in *. split; [apply encode_xor_xaddr; assumption|].
  rewrite xaddr_len by exact H. destruct w; reflexivity.
Qed.
Lemma opt_num {A} ty (f : A -> list Z) o : (forall v, zlen (f v) mod 4 = 0) -> put_fix ty (omap f o) = body (opt ty f o).
Proof. intro H. apply put_fix_opt. destruct o; cbn; auto. Qed.

Lemma code_bits c : 300 <= c < 700 -> Z.land 7 (c / 100 mod 256) = c / 100.
Proof.
  intro H. assert (3 <= c / 100 < 7) by dlia. rewrite (Z.mod_small (c / 100)) by lia.
  assert (c / 100 = 3 \/ c / 100 = 4 \/ c / 100 = 5 \/ c / 100 = 6) as [E|[E|[E|E]]] by lia; rewrite E; reflexivity.
Qed.
Lemma attrs_to_bytes_spec a tid : attrs_ok a -> zlen tid = 12 -> attrs_to_bytes a tid = Ok (body (items a tid)).
Proof.
  intros (A1 & A2 & A3 & A4 & A5 & A6 & A7 & A8 & A9 & A10 & A11 & A12 & A13) T. unfold attrs_to_bytes, items.
  rewrite (put_str_opt 6 _ A1). cbn [bind].
  rewrite !opt_num by reflexivity. rewrite !opt_addr by assumption.
  assert ((if use_candidate a then be16 37 ++ be16 0 else []) = body (if use_candidate a then [(37, [])] else [])) as -> by (destruct (use_candidate a); reflexivity).
  assert (match data a with None => Ok [] | Some d => if 65535 <? zlen d then Err else Ok (be16 19 ++ be16 (zlen d mod 65536) ++ d ++ pad_bytes (zlen d)) end
          = Ok (body (opt 19 (fun v => v) (data a)))) as ->.
  { destruct (data a) as [d|]; [|reflexivity]. destruct A6 as [B L]. pose proof (zlen_nonneg d). replace (65535 <? zlen d) with false by lia.
    rewrite Z.mod_small by lia. unfold opt, body, tlv, pad_bytes. cbn [map concat fst snd]. rewrite app_nil_r, pad_eq by lia. reflexivity. }
  cbn [bind]. rewrite (put_str_opt 20 _ A11), (put_str_opt 21 _ A12). cbn [bind].
  assert (match error_code a with
    | None => Ok []
    | Some (code, reason) =>
        if 65535 <? 4 + zlen reason mod 65536 then Panic else
        do r <- encode_str_no_len reason;
        Ok (be16 9 ++ be16 (4 + zlen reason mod 65536) ++ be16 0 ++ [Z.land 7 (code / 100 mod 256); code mod 100] ++ r ++ pad_bytes (zlen reason))
    end = Ok (body (opt 9 (fun '(code, reason) => [0; 0; code / 100; code mod 100] ++ reason) (error_code a)))) as ->.
  { destruct (error_code a) as [[code reason]|]; [|reflexivity]. destruct A13 as (C & B & U & L). pose proof (zlen_nonneg reason).
    rewrite Z.mod_small by lia. replace (65535 <? 4 + zlen reason) with false by lia. unfold encode_str_no_len.
    replace (128 <? zlen reason) with false by lia. cbn [bind]. rewrite code_bits by exact C.
    unfold opt, body, tlv, pad_bytes. cbn [map concat fst snd]. rewrite app_nil_r, pad_eq by lia.
    rewrite zlen_app. change (zlen [0; 0; code / 100; code mod 100]) with 4.
    assert (padding (4 + zlen reason) = padding (zlen reason)) as -> by (unfold padding; dlia).
    rewrite <- !app_assoc. reflexivity. }
  cbn [bind]. rewrite (opt_num 12), (opt_num 13) by reflexivity. rewrite !body_app, <- !app_assoc. reflexivity.
Qed.

Lemma opt_len {A} ty (f : A -> list Z) o (n : A -> Z) : all (fun v => zlen (f v) + padding (zlen (f v)) = n v) o -> zlen (body (opt ty f o)) = olen o n.
Proof.
  destruct o as [v|]; intro H; [|reflexivity]. unfold opt, body, olen. cbn [map concat]. rewrite app_nil_r, tlv_len. cbn [snd]. cbn in H. lia.
Qed.
Lemma str_opt_len ty o : zlen (body (opt ty (fun v : list Z => v) o)) = olen o str_len.
Proof. apply opt_len. destruct o; cbn; [|exact I]. unfold str_len. rewrite pad_eq by apply zlen_nonneg. reflexivity. Qed.
Lemma addr_opt_len ty tid o : all addr_ok o -> zlen (body (opt ty (xaddr tid) o)) = olen o addr_len.
Proof.
  intro H. apply opt_len. destruct o as [v|]; cbn in *; [|exact I]. rewrite xaddr_len by exact H. destruct v; reflexivity.
Qed.
Lemma num_opt_len {A} ty (f : A -> list Z) o n : (forall v, zlen (f v) = n) -> n mod 4 = 0 -> zlen (body (opt ty f o)) = olen o (fun _ => n).
Proof. intros H M. apply opt_len. destruct o; cbn; [|exact I]. rewrite H, padding_4 by exact M. lia. Qed.
Lemma padded_len_spec a tid : attrs_ok a -> padded_len a = zlen (body (items a tid)).
Proof.
  intros (A1 & A2 & A3 & A4 & A5 & A6 & A7 & A8 & A9 & A10 & A11 & A12 & A13). unfold padded_len, items. rewrite !body_app, !zlen_app.
  rewrite !str_opt_len, !addr_opt_len by assumption.
  rewrite (num_opt_len 32809 be64 _ 8), (num_opt_len 32810 be64 _ 8), (num_opt_len 36 be32 _ 4), (num_opt_len 12 _ _ 4), (num_opt_len 13 be32 _ 4) by reflexivity.
  rewrite (opt_len 9 _ (error_code a) (fun '(_, reason) => 4 + zlen reason + calculate_pad (zlen reason))).
  2:{ destruct (error_code a) as [[c r]|]; cbn [all]; [|exact I]. rewrite zlen_app. change (zlen [0; 0; c / 100; c mod 100]) with 4.
      rewrite pad_eq by apply zlen_nonneg. assert (padding (4 + zlen r) = padding (zlen r)) as -> by (unfold padding; dlia). lia. }
  assert (zlen (body (if use_candidate a then [(37, [])] else [])) = if use_candidate a then 4 else 0) as -> by (destruct (use_candidate a); reflexivity).
  lia.
Qed.

Lemma put_at_app p x s v : zlen v = zlen x -> put_at (p ++ x ++ s) (zlen p) v = Ok (p ++ v ++ s).
Proof.
  intro L. unfold put_at. pose proof (zlen_nonneg p). pose proof (zlen_nonneg x). pose proof (zlen_nonneg s). rewrite !zlen_app, L.
  replace ((0 <=? zlen p) && (zlen p + zlen x <=? zlen p + (zlen x + zlen s))) with true by lia. f_equal.
  unfold zlen. rewrite Nat2Z.id, firstn_app, Nat.sub_diag, firstn_all, firstn_O, app_nil_r. f_equal. f_equal.
  replace (Z.to_nat (Z.of_nat (length p) + Z.of_nat (length x))) with (length p + length x)%nat by lia.
  rewrite skipn_app, skipn_all2 by lia. replace (length p + length x - length p)%nat with (length x) by lia. rewrite skipn_app, skipn_all, Nat.sub_diag. reflexivity.
Qed.
Lemma type_bits c m mt : method_to_u16 m = Ok mt -> Z.lor (class_to_u16 c) mt = type_code c m.
Proof. destruct m; cbn [method_to_u16]; intro H; inversion H; subst; destruct c; reflexivity. Qed.
Lemma method_known m : m <> UnknownMethod -> exists mt, method_to_u16 m = Ok mt.
Proof. destruct m; cbn; intro H; try congruence; eauto. Qed.
Lemma header_len c m n tid : zlen tid = 12 -> zlen (header c m n tid) = 20.
Proof. intro T. unfold header. rewrite !zlen_app, T. reflexivity. Qed.

Lemma zlen_wire P m pw : prims_ok P -> zlen (trans_id m) = 12 ->
  zlen (wire P m pw) = 20 + zlen (body (items (m_attrs m) (trans_id m))) + (match pw with Some _ => 24 | None => 0 end) + 8.
Proof.
  intros PO T. unfold wire. cbv zeta. rewrite !zlen_app, header_len by exact T. rewrite !tlv_len. cbn [snd]. rewrite zlen_be32. change (padding 4) with 0.
  destruct pw as [pw|]; [|rewrite zlen_nil; lia]. rewrite tlv_len. cbn [snd]. destruct PO as [H _].
  match goal with |- context[zlen (hmac P pw ?x)] => destruct (H pw x) as [-> _] end. change (padding 20) with 0. lia.
Qed.

Lemma to_bytes_wire P m pw room : prims_ok P -> attrs_ok (m_attrs m) -> zlen (trans_id m) = 12 -> m_method m <> UnknownMethod ->
  zlen (wire P m pw) < 65536 + 20 -> zlen (wire P m pw) <= room -> to_bytes P m pw room = Ok (wire P m pw).
Proof.
  intros PO AO T MK SZ RM. rewrite zlen_wire in SZ, RM by assumption. unfold to_bytes. cbv zeta.
  destruct (method_known _ MK) as [mt E]. rewrite E. cbn [bind]. rewrite (type_bits _ _ _ E), attrs_to_bytes_spec by assumption. cbn [bind].
  rewrite (padded_len_spec _ (trans_id m)) by exact AO.
  unfold wire. cbv zeta.
  remember (body (items (m_attrs m) (trans_id m))) as B eqn:EB. pose proof (zlen_nonneg B) as NB. clear EB E mt MK AO.
  set (ty := type_code (m_class m) (m_method m)).
  assert (exists mi0 mi, mi0 = (match pw with Some _ => be16 8 ++ be16 20 ++ rep 0 20 | None => [] end)
    /\ zlen mi0 = (match pw with Some _ => 24 | None => 0 end)
    /\ mi = (match pw with
             | Some p => tlv (8, hmac P p (header (m_class m) (m_method m) (zlen B + 24) (trans_id m) ++ B))
             | None => []
             end) /\ zlen mi = zlen mi0) as (mi0 & mi & E0 & L0 & E1 & L1).
  { eexists _, _. split; [reflexivity|]. split; [destruct pw; reflexivity|]. split; [reflexivity|]. destruct pw as [p|]; [|reflexivity].
    rewrite tlv_len. cbn [snd]. destruct PO as [H _]. match goal with |- context[zlen (hmac P p ?x)] => destruct (H p x) as [-> _] end. reflexivity. }
  rewrite <- E0, <- E1, <- L0, L1. rewrite <- L0 in SZ, RM. pose proof (zlen_nonneg mi0).
  set (n0 := (zlen B + zlen mi0 + 8 - 8) mod 65536).
  assert (n0 = zlen B + zlen mi0) as N0 by (unfold n0; rewrite Z.mod_small; lia).
  assert (header (m_class m) (m_method m) (zlen B + zlen mi0) (trans_id m) = be16 ty ++ be16 n0 ++ MAGIC ++ trans_id m) as H0.
  { unfold header. rewrite N0. reflexivity. }
  assert (zlen (be16 ty ++ be16 n0 ++ MAGIC ++ trans_id m ++ B ++ mi0 ++ be16 32808 ++ be16 4 ++ rep 0 4) = 20 + zlen B + zlen mi0 + 8) as LT.
  { rewrite !zlen_app, T. change (zlen (be16 32808)) with 2. change (zlen (be16 4)) with 2. change (zlen (rep 0 4)) with 4. change (zlen MAGIC) with 4.
    rewrite !zlen_be16. lia. }
  rewrite LT. replace (room <? 20 + zlen B + zlen mi0 + 8) with false by lia.
  (* message integrity *)
  assert (match pw with
    | Some p => do pre <- upto (be16 ty ++ be16 n0 ++ MAGIC ++ trans_id m ++ B ++ mi0 ++ be16 32808 ++ be16 4 ++ rep 0 4) (20 + zlen B + 4 - 4);
                put_at (be16 ty ++ be16 n0 ++ MAGIC ++ trans_id m ++ B ++ mi0 ++ be16 32808 ++ be16 4 ++ rep 0 4) (20 + zlen B + 4) (hmac P p pre)
    | None => Ok (be16 ty ++ be16 n0 ++ MAGIC ++ trans_id m ++ B ++ mi0 ++ be16 32808 ++ be16 4 ++ rep 0 4)
    end = Ok (be16 ty ++ be16 n0 ++ MAGIC ++ trans_id m ++ B ++ mi ++ be16 32808 ++ be16 4 ++ rep 0 4)) as ->.
  { destruct pw as [p|]; [|subst mi mi0; reflexivity].
    set (h := header (m_class m) (m_method m) (zlen B + 24) (trans_id m)) in *.
    assert (h = be16 ty ++ be16 n0 ++ MAGIC ++ trans_id m) as Eh by (rewrite <- H0; unfold h; f_equal; lia).
    assert (be16 ty ++ be16 n0 ++ MAGIC ++ trans_id m ++ B ++ mi0 ++ be16 32808 ++ be16 4 ++ rep 0 4 = (h ++ B) ++ mi0 ++ be16 32808 ++ be16 4 ++ rep 0 4) as ->.
    { rewrite Eh, <- !app_assoc. reflexivity. }
    replace (20 + zlen B + 4 - 4) with (zlen (h ++ B)).
    2:{ rewrite zlen_app. unfold h. rewrite header_len by exact T. lia. }
    rewrite upto_app. cbn [bind]. destruct PO as [HM _]. destruct (HM p (h ++ B)) as [HL _]. subst mi0 mi.
    replace (20 + zlen B + 4) with (zlen ((h ++ B) ++ be16 8 ++ be16 20)).
    2:{ rewrite !zlen_app. unfold h. rewrite header_len by exact T. rewrite !zlen_be16. lia. }
    replace ((h ++ B) ++ (be16 8 ++ be16 20 ++ rep 0 20) ++ be16 32808 ++ be16 4 ++ rep 0 4)
      with (((h ++ B) ++ be16 8 ++ be16 20) ++ rep 0 20 ++ be16 32808 ++ be16 4 ++ rep 0 4) by (rewrite <- !app_assoc; reflexivity).
    rewrite put_at_app by (rewrite HL; reflexivity). f_equal. unfold tlv. cbn [fst snd]. rewrite HL. change (rep 0 (padding 20)) with (@nil Z).
    rewrite app_nil_r, Eh, <- !app_assoc. reflexivity. }
  cbn [bind].
  replace ((zlen B + zlen mi0 + 8) mod 65536) with (zlen B + zlen mi + 8) by (rewrite Z.mod_small; lia).
  set (n1 := zlen B + zlen mi + 8).
  assert (2 = zlen (be16 ty)) as E2 by reflexivity. rewrite E2 at 1. rewrite put_at_app by reflexivity. cbn [bind].
  set (h := header (m_class m) (m_method m) n1 (trans_id m)).
  assert (be16 ty ++ be16 n1 ++ MAGIC ++ trans_id m ++ B ++ mi ++ be16 32808 ++ be16 4 ++ rep 0 4 = (h ++ B ++ mi) ++ be16 32808 ++ be16 4 ++ rep 0 4) as ->.
  { unfold h, header. rewrite <- !app_assoc. reflexivity. }
  assert (zlen (h ++ B ++ mi) = 20 + zlen B + zlen mi0) as LH.
  { rewrite !zlen_app, L1. unfold h. rewrite header_len by exact T. lia. }
  replace (20 + zlen B + 4 + zlen mi0 - 4) with (zlen (h ++ B ++ mi)) by lia. rewrite upto_app. cbn [bind].
  replace (20 + zlen B + 4 + zlen mi0) with (zlen ((h ++ B ++ mi) ++ be16 32808 ++ be16 4)) by (rewrite zlen_app, LH; change (zlen (be16 32808 ++ be16 4)) with 4; lia).
  replace ((h ++ B ++ mi) ++ be16 32808 ++ be16 4 ++ rep 0 4) with (((h ++ B ++ mi) ++ be16 32808 ++ be16 4) ++ rep 0 4 ++ []) by (rewrite <- !app_assoc, app_nil_r; reflexivity).
  rewrite put_at_app by reflexivity. f_equal. unfold tlv. cbn [fst snd]. rewrite zlen_be32. change (rep 0 (padding 4)) with (@nil Z).
  rewrite <- !app_assoc. subst h n1. rewrite L1. reflexivity.
Qed.

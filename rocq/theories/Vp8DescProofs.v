From Verif Require Import Base BaseFacts Brute SeqModel Vp8Model Vp8Spec Vp8Proofs.

(** what a payload with descriptor bytes [pre] looks like *)
Lemma zl {A} (n : Z) (l r : list A) : n <= zlen l -> 0 < zlen r -> (zlen (l ++ r) <=? n) = false.
Proof. intros. rewrite zlen_app. lia. Qed.

Lemma kbits old v : byte_ok old -> 0 <= v < 32 -> Z.land (Z.lor (Z.land old 224) v) 31 = v /\
  Z.shiftr (Z.lor (Z.land old 224) v) 6 = Z.shiftr old 6 /\ Z.land (Z.shiftr (Z.lor (Z.land old 224) v) 5) 1 = Z.land (Z.shiftr old 5) 1.
Proof.
  intros O V. pose proof (brute2 256 32 (fun old v => (Z.land (Z.lor (Z.land old 224) v) 31 =? v) && (Z.shiftr (Z.lor (Z.land old 224) v) 6 =? Z.shiftr old 6) &&
    (Z.land (Z.shiftr (Z.lor (Z.land old 224) v) 5) 1 =? Z.land (Z.shiftr old 5) 1)) ltac:(vm_compute; reflexivity) old v O V) as Q. cbn beta in Q. lia.
Qed.
Lemma land255 v : Z.land v 255 = v mod 256. Proof. apply (land_mask v 8). lia. Qed.


Lemma zlen_pos {A} (l : list A) n x : n <= 0 -> (zlen (x :: l) <=? n) = false.
Proof. intro H. rewrite zlen_cons. pose proof (zlen_nonneg l). lia. Qed.
Lemma zlen_gt {A} (l : list A) n x : (zlen l <=? n - 1) = false -> (zlen (x :: l) <=? n) = false.
Proof. intro H. rewrite zlen_cons. lia. Qed.
Ltac zl := repeat first [rewrite zlen_pos by lia | rewrite zlen_gt by (cbn [Z.sub Z.opp Z.add]; zl0) ]
with zl0 := first [apply zlen_pos; lia | apply zlen_gt; zl0 ].

(** [desc_parse] as a relation: nineteen shapes *)
Inductive shape : list Z -> desc -> list Z -> Prop :=
| sh0 b0 h r : bit b0 128 = false -> shape (b0 :: h :: r) (mkDesc 1 None None None) (h :: r)
| sh1 b0 e p q k h r pid tl0 key o1 o2 o3 :
    bit b0 128 = true -> (bit e 64 = true -> bit e 32 = true) ->
    (if bit e 128 then exists b, (bit b 128 = true /\ exists lo, p = [b; lo] /\ pid = Some (Z.lor (Z.shiftl (Z.land b 127) 8) lo, 2, true) /\ o1 = 4)
                             \/ (bit b 128 = false /\ p = [b] /\ pid = Some (Z.land b 127, 2, false) /\ o1 = 3)
     else p = [] /\ pid = None /\ o1 = 2) ->
    (if bit e 64 then exists t, q = [t] /\ tl0 = Some (t, o1) /\ o2 = o1 + 1 else q = [] /\ tl0 = None /\ o2 = o1) ->
    (if bit e 32 || bit e 16 then exists v, k = [v] /\ key = (if bit e 16 then Some (v, o2) else None) /\ o3 = o2 + 1 else k = [] /\ key = None /\ o3 = o2) ->
    shape (b0 :: e :: p ++ q ++ k ++ h :: r) (mkDesc o3 pid tl0 key) (h :: r).

Lemma leb_len {A} (l r : list A) n : n = zlen l -> r <> [] -> (zlen (l ++ r) <=? n) = false.
Proof. intros -> H. rewrite zlen_app. destruct r; [congruence|]. rewrite zlen_cons. pose proof (zlen_nonneg r). lia. Qed.

Ltac dcbn := repeat progress (cbn -[bit Z.lor Z.shiftl Z.land zlen Pos.to_nat]; change (Pos.to_nat 1) with 1%nat; change (Pos.to_nat 2) with 2%nat; change (Pos.to_nat 3) with 3%nat; change (Pos.to_nat 4) with 4%nat; change (Pos.to_nat 5) with 5%nat; change (Pos.to_nat 6) with 6%nat).
Lemma shape_parse pl d m : shape pl d m -> desc_parse pl = Some d /\ m <> [] /\ pl = firstn (Z.to_nat (payload_offset d)) pl ++ m /\ skipn (Z.to_nat (payload_offset d)) pl = m.
Proof.
  intros [b0 h r B|b0 e p q k h r pid tl0 key o1 o2 o3 B LT HP HQ HK].
  - unfold desc_parse. rewrite B. cbn [payload_offset]. dcbn; rewrite (leb_len [b0] (h :: r)) by (reflexivity || discriminate). dcbn; repeat split; discriminate || reflexivity.
  - unfold desc_parse. rewrite B. change (rd_byte (b0 :: e :: p ++ q ++ k ++ h :: r) 1) with (Some e). cbv beta iota.
    destruct (bit e 64) eqn:B64.
    + rewrite (LT eq_refl) in *. cbn [negb andb orb] in *. destruct HQ as (t & -> & -> & ->). destruct HK as (v & -> & -> & ->).
      destruct (bit e 128); [destruct HP as (b & [(Bb & lo & -> & -> & ->)|(Bb & -> & -> & ->)])|destruct HP as (-> & -> & ->)].
      * dcbn. rewrite Bb. dcbn.
        dcbn; rewrite (leb_len [b0; e; b; lo; t; v] (h :: r)) by (reflexivity || discriminate). dcbn; repeat split; discriminate || reflexivity.
      * dcbn. rewrite Bb. dcbn.
        dcbn; rewrite (leb_len [b0; e; b; t; v] (h :: r)) by (reflexivity || discriminate). dcbn; repeat split; discriminate || reflexivity.
      * dcbn.
        dcbn; rewrite (leb_len [b0; e; t; v] (h :: r)) by (reflexivity || discriminate). dcbn; repeat split; discriminate || reflexivity.
    + cbn [andb]. destruct HQ as (-> & -> & ->). destruct (bit e 32 || bit e 16) eqn:TK.
      * destruct HK as (v & -> & -> & ->).
        destruct (bit e 128); [destruct HP as (b & [(Bb & lo & -> & -> & ->)|(Bb & -> & -> & ->)])|destruct HP as (-> & -> & ->)].
        -- dcbn. rewrite Bb. dcbn.
           dcbn; rewrite (leb_len [b0; e; b; lo; v] (h :: r)) by (reflexivity || discriminate). dcbn; repeat split; discriminate || reflexivity.
        -- dcbn. rewrite Bb. dcbn.
           dcbn; rewrite (leb_len [b0; e; b; v] (h :: r)) by (reflexivity || discriminate). dcbn; repeat split; discriminate || reflexivity.
        -- dcbn.
           dcbn; rewrite (leb_len [b0; e; v] (h :: r)) by (reflexivity || discriminate). dcbn; repeat split; discriminate || reflexivity.
      * destruct HK as (-> & -> & ->).
        destruct (bit e 128); [destruct HP as (b & [(Bb & lo & -> & -> & ->)|(Bb & -> & -> & ->)])|destruct HP as (-> & -> & ->)].
        -- dcbn. rewrite Bb. dcbn.
           dcbn; rewrite (leb_len [b0; e; b; lo] (h :: r)) by (reflexivity || discriminate). dcbn; repeat split; discriminate || reflexivity.
        -- dcbn. rewrite Bb. dcbn.
           dcbn; rewrite (leb_len [b0; e; b] (h :: r)) by (reflexivity || discriminate). dcbn; repeat split; discriminate || reflexivity.
        -- dcbn.
           dcbn; rewrite (leb_len [b0; e] (h :: r)) by (reflexivity || discriminate). dcbn; repeat split; discriminate || reflexivity.
Qed.

Lemma rd_split pl o v : 0 <= o -> rd_byte pl o = Some v -> exists a b, pl = a ++ v :: b /\ zlen a = o.
Proof.
  intros O H. apply nth_error_split in H as (a & b & -> & L). exists a, b. split; [reflexivity|]. unfold zlen. lia.
Qed.
Lemma leb_split {A} (l r : list A) n : n = zlen l -> (zlen (l ++ r) <=? n) = false -> exists h t, r = h :: t.
Proof. intros -> H. destruct r; [rewrite app_nil_r in H; lia|eauto]. Qed.

Lemma parse_shape pl d : desc_parse pl = Some d -> exists m, shape pl d m.
Proof.
  intro D. destruct pl as [|b0 pl]; [discriminate|]. unfold desc_parse in D. destruct (bit b0 128) eqn:B.
  2: { cbn [payload_offset] in D. destruct (zlen (b0 :: pl) <=? 1) eqn:Q; [discriminate|]. injection D as <-.
       destruct (leb_split [b0] pl 1 eq_refl Q) as (h & t & ->). eexists. apply sh0. exact B. }
  destruct pl as [|e pl]; [discriminate|]. change (rd_byte (b0 :: e :: pl) 1) with (Some e) in D. cbv beta iota in D.
  destruct (bit e 64 && negb (bit e 32)) eqn:LT; [discriminate|].
  set (full := b0 :: e :: pl) in *.
  assert (exists p pl1 pid o1, pl = p ++ pl1 /\ o1 = 2 + zlen p /\ 
     (if bit e 128 then exists b, (bit b 128 = true /\ exists lo, p = [b; lo] /\ pid = Some (Z.lor (Z.shiftl (Z.land b 127) 8) lo, 2, true) /\ o1 = 4)
                             \/ (bit b 128 = false /\ p = [b] /\ pid = Some (Z.land b 127, 2, false) /\ o1 = 3)
     else p = [] /\ pid = None /\ o1 = 2) /\
     (match (if bit e 64 then match rd_byte full o1 with None => None | Some v => Some (Some (v, o1), o1 + 1) end else Some (None, o1)) with
            | None => None
            | Some (tl0, off) =>
              match (if bit e 32 || bit e 16 then match rd_byte full off with None => None | Some v => Some (if bit e 16 then Some (v, off) else None, off + 1) end else Some (None, off)) with
              | None => None
              | Some (key, off) => Some (mkDesc off pid tl0 key)
              end
            end) = Some d /\ (zlen full <=? payload_offset d) = false) as (p & pl1 & pid & o1 & E1 & O1 & HP & D1 & LQ).
  { destruct (bit e 128).
    - destruct pl as [|b pl]; [discriminate|]. change (rd_byte full 2) with (Some b) in D. cbv beta iota in D. destruct (bit b 128) eqn:Bb.
      + destruct pl as [|lo pl]; [discriminate|]. change (rd_byte full 3) with (Some lo) in D. cbv beta iota in D.
        exists [b; lo], pl. eexists _, 4. split; [reflexivity|]. split; [reflexivity|]. split; [exists b; left; split; [exact Bb|]; exists lo; auto|].
        match type of D with match ?x with _ => _ end = _ => destruct x as [dd|]; [|discriminate] end.
        destruct (zlen full <=? payload_offset dd) eqn:Q; [discriminate|]. injection D as <-. split; [reflexivity|exact Q].
      + exists [b], pl. eexists _, 3. split; [reflexivity|]. split; [reflexivity|]. split; [exists b; right; auto|].
        match type of D with match ?x with _ => _ end = _ => destruct x as [dd|]; [|discriminate] end.
        destruct (zlen full <=? payload_offset dd) eqn:Q; [discriminate|]. injection D as <-. split; [reflexivity|exact Q].
    - exists [], pl, None, 2. split; [reflexivity|]. split; [reflexivity|]. split; [auto|].
      match type of D with match ?x with _ => _ end = _ => destruct x as [dd|]; [|discriminate] end.
      destruct (zlen full <=? payload_offset dd) eqn:Q; [discriminate|]. injection D as <-. split; [reflexivity|exact Q]. }
  clear D. subst pl. assert (full = (b0 :: e :: p) ++ pl1) as EF by reflexivity. clearbody full.
  assert (zlen (b0 :: e :: p) = o1) as Z1 by (rewrite !zlen_cons; lia).
  assert (forall v, rd_byte full o1 = Some v -> exists r, pl1 = v :: r) as RD1.
  { intros v R. unfold rd_byte in R. rewrite EF in R. rewrite nth_error_app2 in R by (unfold zlen in Z1; lia).
    replace (Z.to_nat o1 - length (b0 :: e :: p))%nat with 0%nat in R by (unfold zlen in Z1; lia). destruct pl1; [discriminate|]. injection R as <-. eauto. }
  assert (exists q pl2 tl0 o2, pl1 = q ++ pl2 /\ o2 = o1 + zlen q /\ (if bit e 64 then exists t, q = [t] /\ tl0 = Some (t, o1) /\ o2 = o1 + 1 else q = [] /\ tl0 = None /\ o2 = o1) /\
     match (if bit e 32 || bit e 16 then match rd_byte full o2 with None => None | Some v => Some (if bit e 16 then Some (v, o2) else None, o2 + 1) end else Some (None, o2)) with
              | None => None
              | Some (key, off) => Some (mkDesc off pid tl0 key)
              end = Some d) as (q & pl2 & tl0 & o2 & E2 & O2 & HQ & D2).
  { destruct (bit e 64).
    - destruct (rd_byte full o1) as [v|] eqn:R; [|discriminate]. destruct (RD1 v eq_refl) as (r & ->).
      exists [v], r, (Some (v, o1)), (o1 + 1). split; [reflexivity|]. split; [reflexivity|]. split; [exists v; auto|exact D1].
    - exists [], pl1, None, o1. split; [reflexivity|]. split; [cbn; lia|]. split; [auto|exact D1]. }
  clear D1 RD1. subst pl1.
  assert (forall v, rd_byte full o2 = Some v -> exists r, pl2 = v :: r) as RD2.
  { intros v R. unfold rd_byte in R. rewrite EF, app_assoc in R. assert (length ((b0 :: e :: p) ++ q) = Z.to_nat o2) as LL by (rewrite app_length; unfold zlen in *; lia).
    rewrite nth_error_app2 in R by lia. rewrite LL, Nat.sub_diag in R. destruct pl2; [discriminate|]. injection R as <-. eauto. }
  assert (exists k pl3 key o3, pl2 = k ++ pl3 /\ o3 = o2 + zlen k /\ (if bit e 32 || bit e 16 then exists v, k = [v] /\ key = (if bit e 16 then Some (v, o2) else None) /\ o3 = o2 + 1 else k = [] /\ key = None /\ o3 = o2) /\
     d = mkDesc o3 pid tl0 key) as (k & pl3 & key & o3 & E3 & O3 & HK & ->).
  { destruct (bit e 32 || bit e 16).
    - destruct (rd_byte full o2) as [v|] eqn:R; [|discriminate]. destruct (RD2 v eq_refl) as (r & ->).
      injection D2 as <-. exists [v], r. eexists _, (o2 + 1). split; [reflexivity|]. split; [reflexivity|]. split; [exists v; auto|reflexivity].
    - injection D2 as <-. exists [], pl2, None, o2. split; [reflexivity|]. split; [cbn; lia|]. split; [auto|reflexivity]. }
  clear D2 RD2. subst pl2. cbn [payload_offset] in LQ. rewrite EF in LQ.
  replace ((b0 :: e :: p) ++ q ++ k ++ pl3) with (((b0 :: e :: p) ++ q ++ k) ++ pl3) in LQ by (rewrite <- !app_assoc; reflexivity).
  destruct (leb_split ((b0 :: e :: p) ++ q ++ k) pl3 o3 ltac:(rewrite !zlen_app; lia) LQ) as (h & t & ->).
  exists (h :: t). rewrite EF. cbn [app]. eapply sh1; eauto. intro H64. rewrite H64 in LT. destruct (bit e 32); [reflexivity|discriminate].
Qed.

(** * Patching *)
Lemma copy_to_app a : forall b l, copy_to (a ++ b) l = bind (copy_to a l) (copy_to b).
Proof.
  induction a as [|[o v] a IH]; intros b l; [reflexivity|]. cbn [app copy_to]. destruct (zlen l <=? o); [reflexivity|apply IH].
Qed.
Lemma lset_mid {A} (a : list A) x v c : lset (a ++ x :: c) (length a) v = a ++ v :: c.
Proof. induction a; cbn; [reflexivity|]. rewrite IHa. reflexivity. Qed.
Lemma copy_one o v a x c rest : o = zlen a -> copy_to ((o, v) :: rest) (a ++ x :: c) = copy_to rest (a ++ v :: c).
Proof.
  intros ->. cbn [copy_to]. rewrite zlen_app, zlen_cons. pose proof (zlen_nonneg c). destruct (zlen a + (1 + zlen c) <=? zlen a) eqn:Q; [lia|].
  f_equal. unfold zlen. rewrite Nat2Z.id. apply lset_mid.
Qed.


Lemma patch_shape pl d m pid tl0 key patch : bytes_ok pl -> ovalid 65536 pid -> ovalid 256 tl0 -> ovalid 256 key ->
  shape pl d m -> build d pid tl0 key = Some patch ->
  exists pl' d', copy_to patch pl = Ok pl' /\ zlen pl' = zlen pl /\ bytes_ok pl' /\ shape pl' d' m /\
    payload_offset d' = payload_offset d /\
    (match d_pid d' with Some (v, _, _) => Some v | None => None end) = over pid (match d_pid d with Some (v, _, _) => Some v | None => None end) /\
    (match d_tl0 d' with Some (v, _) => Some v | None => None end) = over tl0 (match d_tl0 d with Some (v, _) => Some v | None => None end) /\
    (match d_key d' with Some (v, _) => Some (Z.land v 31) | None => None end) = over key (match d_key d with Some (v, _) => Some (Z.land v 31) | None => None end) /\
    (forall s out x s1 o1 x1, vp8_depacketize s pl out x = (s1, Some (o1, x1)) -> exists s2 x2, vp8_depacketize s pl' out x = (s2, Some (o1, x2)) /\
       discardable x2 = discardable x1 /\ sync x2 = sync x1 /\ layer_index x2 = layer_index x1 /\ x_key x2 = x_key x1).
Proof.
  intros BO VP VT VK S BU.
  destruct S as [b0 h r B|b0 e p q k h r dp dt dk o1 o2 o3 B LT HP HQ HK].
  { unfold build in BU. cbn [d_pid d_tl0 d_key] in BU. destruct pid; [discriminate|]. destruct tl0; [discriminate|]. destruct key; [discriminate|].
    injection BU as <-. exists (b0 :: h :: r), (mkDesc 1 None None None). cbn [copy_to]. repeat split; auto.
    - apply sh0; exact B.
    - intros s out x s1 o1 x1 E. exists s1, x1. auto. }
  (* the three fields *)
  assert (exists p1 p', (match pid with
         | None => Some []
         | Some v => match dp with
                     | None => None
                     | Some (_, off, wide) =>
                         if 32767 <? v then None
                         else if negb wide && (127 <? v) then None
                         else Some (if wide then [(off mod U8, Z.lor 128 (Z.land (Z.shiftr v 8) 127)); ((off + 1) mod U8, v mod U8)]
                                    else [(off mod U8, v mod U8)])
                     end
         end) = Some p1 /\ (forall z, copy_to p1 ([b0; e] ++ p ++ z) = Ok ([b0; e] ++ p' ++ z)) /\ zlen p' = zlen p /\ bytes_ok p' /\
         exists dp', (if bit e 128 then exists b, (bit b 128 = true /\ exists lo, p' = [b; lo] /\ dp' = Some (Z.lor (Z.shiftl (Z.land b 127) 8) lo, 2, true) /\ o1 = 4)
                             \/ (bit b 128 = false /\ p' = [b] /\ dp' = Some (Z.land b 127, 2, false) /\ o1 = 3)
                      else p' = [] /\ dp' = None /\ o1 = 2) /\
          (match dp' with Some (v, _, _) => Some v | None => None end) = over pid (match dp with Some (v, _, _) => Some v | None => None end))
    as (p1 & p' & E1 & C1 & L1 & BP & dp' & HP' & V1).
  { assert (bytes_ok p) as BOp. { unfold bytes_ok in *. inversion BO; subst. inversion H2; subst. apply Forall_app in H4. tauto. }
    unfold build in BU. cbn [d_pid] in BU. destruct pid as [v|].
    2: { exists [], p. split; [reflexivity|]. split; [reflexivity|]. split; [reflexivity|]. split; [exact BOp|]. exists dp. split; [exact HP|reflexivity]. }
    cbn [ovalid] in VP. destruct dp as [[[old off] wide]|]; [|discriminate].
    destruct (32767 <? v) eqn:Q1; [discriminate|]. destruct (negb wide && (127 <? v)) eqn:Q2; [discriminate|].
    destruct (bit e 128); [|destruct HP as (_ & ? & _); discriminate].
    destruct HP as (b & [(Bb & lo & -> & EE & ->)|(Bb & -> & EE & ->)]); injection EE as -> -> ->.
    - destruct (bit15 v ltac:(lia)) as (F1 & F2 & F3). eexists _, [_; _]. split; [reflexivity|]. split.
      { intro z. change (2 mod U8) with 2. change ((2 + 1) mod U8) with 3. change ([b0; e] ++ [b; lo] ++ z) with ([b0; e] ++ b :: lo :: z).
        rewrite (copy_one 2 _ [b0; e]) by reflexivity. match goal with |- copy_to [(3, ?w)] ([b0; e] ++ ?c :: lo :: z) = _ => change ([b0; e] ++ c :: lo :: z) with ([b0; e; c] ++ lo :: z); rewrite (copy_one 3 w [b0; e; c]) by reflexivity end.
        cbn [copy_to app]. reflexivity. }
      split; [reflexivity|]. split; [constructor; [exact F3|constructor; [unfold byte_ok, U8; apply Z.mod_pos_bound; lia|constructor]]|].
      eexists. split; [eexists; left; split; [exact F1|]; eexists; split; [reflexivity|]; split; [reflexivity|reflexivity]|].
      cbn [over]. f_equal. unfold U8. rewrite <- land255. exact F2.
    - cbn [negb andb] in Q2. eexists _, [_]. split; [reflexivity|]. split.
      { intro z. change (2 mod U8) with 2. change ([b0; e] ++ [b] ++ z) with ([b0; e] ++ b :: z). rewrite (copy_one 2 _ [b0; e]) by reflexivity. reflexivity. }
      assert (v mod U8 = v) as MV by (unfold U8; apply Z.mod_small; lia). destruct (bit7 v ltac:(lia)) as [G1 G2].
      split; [reflexivity|]. split; [constructor; [unfold byte_ok; rewrite MV; lia|constructor]|].
      eexists. split; [exists (v mod U8); right; split; [rewrite MV; exact G2|]; split; [reflexivity|]; split; reflexivity|].
      cbn [over]. f_equal. try rewrite MV; exact G1. }
  unfold build in BU. cbn [d_pid d_tl0 d_key] in BU. rewrite E1 in BU.
  assert (zlen ([b0; e] ++ p') = o1) as O1.
  { rewrite zlen_app, L1. change (zlen [b0; e]) with 2. destruct (bit e 128); [destruct HP as (b & [(_ & lo & -> & _ & ->)|(_ & -> & _ & ->)])|destruct HP as (-> & _ & ->)]; reflexivity. }
  assert (2 <= o1 <= 4) as O1R. { destruct (bit e 128); [destruct HP as (b & [(_ & lo & -> & _ & ->)|(_ & -> & _ & ->)])|destruct HP as (-> & _ & ->)]; lia. }
  assert (exists p2 q', (match tl0 with None => Some [] | Some v => match dt with None => None | Some (_, off) => Some [(off mod U8, v)] end end) = Some p2 /\
      (forall z, copy_to p2 (([b0; e] ++ p') ++ q ++ z) = Ok (([b0; e] ++ p') ++ q' ++ z)) /\ zlen q' = zlen q /\ bytes_ok q' /\
      exists dt', (if bit e 64 then exists t, q' = [t] /\ dt' = Some (t, o1) /\ o2 = o1 + 1 else q' = [] /\ dt' = None /\ o2 = o1) /\
       (match dt' with Some (v, _) => Some v | None => None end) = over tl0 (match dt with Some (v, _) => Some v | None => None end))
    as (p2 & q' & E2 & C2 & L2 & BQ & dt' & HQ' & V2).
  { assert (bytes_ok q) as BOq. { unfold bytes_ok in *. inversion BO; subst. inversion H2; subst. apply Forall_app in H4 as [_ H4]. apply Forall_app in H4. tauto. }
    destruct tl0 as [v|].
    2: { exists [], q. split; [reflexivity|]. split; [reflexivity|]. split; [reflexivity|]. split; [exact BOq|]. exists dt. split; [exact HQ|reflexivity]. }
    cbn [ovalid] in VT. destruct dt as [[old off]|]; [|discriminate]. destruct (bit e 64); [|destruct HQ as (_ & ? & _); discriminate].
    destruct HQ as (t & -> & EE & ->). injection EE as -> ->. eexists _, [v]. split; [reflexivity|]. split.
    { intro z. rewrite Z.mod_small by (unfold U8; lia). change ([t] ++ z) with (t :: z). rewrite copy_one by (symmetry; exact O1). reflexivity. }
    split; [reflexivity|]. split; [constructor; [unfold byte_ok; lia|constructor]|]. eexists. split; [exists v; split; [reflexivity|]; split; reflexivity|]. reflexivity. }
  rewrite E2 in BU.
  assert (zlen (([b0; e] ++ p') ++ q') = o2) as O2.
  { rewrite zlen_app, O1, L2. destruct (bit e 64); [destruct HQ as (t & -> & _ & ->)|destruct HQ as (-> & _ & ->)]; cbn; lia. }
  assert (2 <= o2 <= 5) as O2R by (destruct (bit e 64); [destruct HQ as (t & _ & _ & ->)|destruct HQ as (_ & _ & ->)]; lia).
  assert (exists p3 k', (match key with None => Some [] | Some v => match dk with None => None | Some (old, off) => if 31 <? v then None else Some [(off mod U8, Z.lor (Z.land old 224) v)] end end) = Some p3 /\
      (forall z, copy_to p3 ((([b0; e] ++ p') ++ q') ++ k ++ z) = Ok ((([b0; e] ++ p') ++ q') ++ k' ++ z)) /\ zlen k' = zlen k /\ bytes_ok k' /\
      (forall v, k = [v] -> exists v', k' = [v'] /\ Z.shiftr v' 6 = Z.shiftr v 6 /\ Z.land (Z.shiftr v' 5) 1 = Z.land (Z.shiftr v 5) 1) /\
      exists dk', (if bit e 32 || bit e 16 then exists v, k' = [v] /\ dk' = (if bit e 16 then Some (v, o2) else None) /\ o3 = o2 + 1 else k' = [] /\ dk' = None /\ o3 = o2) /\
       (match dk' with Some (v, _) => Some (Z.land v 31) | None => None end) = over key (match dk with Some (v, _) => Some (Z.land v 31) | None => None end))
    as (p3 & k' & E3 & C3 & L3 & BK & K3 & dk' & HK' & V3).
  { assert (bytes_ok k) as BOk. { unfold bytes_ok in *. inversion BO; subst. inversion H2; subst. apply Forall_app in H4 as [_ H4]. apply Forall_app in H4 as [_ H4]. apply Forall_app in H4. tauto. }
    destruct key as [v|].
    2: { exists [], k. split; [reflexivity|]. split; [reflexivity|]. split; [reflexivity|]. split; [exact BOk|]. split; [intros v ->; exists v; auto|]. exists dk. split; [exact HK|reflexivity]. }
    cbn [ovalid] in VK. destruct dk as [[old off]|]; [|discriminate]. destruct (31 <? v) eqn:Q; [discriminate|].
    destruct (bit e 32 || bit e 16); [|destruct HK as (_ & ? & _); discriminate]. destruct HK as (w & -> & EE & ->).
    destruct (bit e 16); [|discriminate]. injection EE as -> ->. pose proof (Forall_inv BOk) as Bw.
    destruct (kbits w v Bw ltac:(lia)) as (K1 & K2 & K3').
    eexists _, [_]. split; [reflexivity|]. split.
    { intro z. rewrite Z.mod_small by (unfold U8; lia). change ([w] ++ z) with (w :: z). rewrite copy_one by (symmetry; exact O2). reflexivity. }
    split; [reflexivity|]. split.
    { constructor; [|constructor]. unfold byte_ok in *. assert (0 <= Z.lor (Z.land w 224) v) by (apply Z.lor_nonneg; split; [apply Z.land_nonneg; lia|lia]).
      pose proof (brute2 256 32 (fun a b => byteb (Z.lor (Z.land a 224) b)) ltac:(vm_compute; reflexivity) w v ltac:(lia) ltac:(lia)) as Q2. cbn beta in Q2. unfold byteb in Q2. lia. }
    split; [intros w' EW; injection EW as <-; eexists; split; [reflexivity|]; split; [exact K2|exact K3']|].
    eexists. split; [eexists; split; [reflexivity|]; split; reflexivity|]. cbn [over]. f_equal. exact K1. }
  rewrite E3 in BU. injection BU as <-.
  exists (b0 :: e :: p' ++ q' ++ k' ++ h :: r), (mkDesc o3 dp' dt' dk').
  split.
  { rewrite copy_to_app. change (b0 :: e :: p ++ q ++ k ++ h :: r) with ([b0; e] ++ p ++ (q ++ k ++ h :: r)). rewrite C1. cbn [bind].
    rewrite copy_to_app. rewrite app_assoc, C2. cbn [bind]. rewrite app_assoc, C3. rewrite <- !app_assoc. reflexivity. }
  split. { rewrite !zlen_cons, !zlen_app, L1, L2, L3. reflexivity. }
  split. { unfold bytes_ok in *. inversion BO as [|? ? X1 X2]; subst. inversion X2 as [|? ? X3 X4]; subst. constructor; [exact X1|]. constructor; [exact X3|].
    apply Forall_app in X4 as [_ X4]. apply Forall_app in X4 as [_ X4]. apply Forall_app in X4 as [_ X4]. repeat (apply Forall_app; split; auto). }
  split. { eapply sh1; eauto. }
  split; [reflexivity|]. split; [exact V1|]. split; [exact V2|]. split; [exact V3|].
  (* what is left alone *)
  intros s out x s1 oo x1 E. unfold vp8_depacketize in *. rewrite B in *. cbv beta iota in *. cbn [app].
  destruct (bit e 64 && negb (bit e 32)) eqn:Q; [discriminate|].
  assert (forall zz, match (if bit e 128 then match p ++ zz with [] => None | b :: r' => if bit b 128 then match r' with [] => None | x :: r'' => Some (Some (extend_u15 (ext_pid s) (Z.lor (Z.shiftl (Z.land b 127) 8) x)), r'') end else Some (Some (extend_u7 (ext_pid s) b), r') end else Some (ext_pid s, p ++ zz)) with
          None => False | Some (_, rr) => rr = zz end) as PA.
  { intro zz. destruct (bit e 128); [destruct HP as (b & [(Bb & lo & -> & _ & _)|(Bb & -> & _ & _)]); cbn [app]; rewrite Bb; reflexivity|destruct HP as (-> & _ & _); reflexivity]. }
  assert (forall zz, match (if bit e 128 then match p' ++ zz with [] => None | b :: r' => if bit b 128 then match r' with [] => None | x :: r'' => Some (Some (extend_u15 (ext_pid s) (Z.lor (Z.shiftl (Z.land b 127) 8) x)), r'') end else Some (Some (extend_u7 (ext_pid s) b), r') end else Some (ext_pid s, p' ++ zz)) with
          None => False | Some (_, rr) => rr = zz end) as PA'.
  { intro zz. destruct (bit e 128); [destruct HP' as (b & [(Bb & lo & -> & _ & _)|(Bb & -> & _ & _)]); cbn [app]; rewrite Bb; reflexivity|destruct HP' as (-> & _ & _); reflexivity]. }
  cbn [app] in E. specialize (PA (q ++ k ++ h :: r)). specialize (PA' (q' ++ k' ++ h :: r)).
  match type of E with match ?m with _ => _ end = _ => destruct m as [[pid1 r1]|]; [|contradiction] end.
  match goal with |- exists s2 x2, match ?m with _ => _ end = _ /\ _ => destruct m as [[pid2 r2]|]; [|contradiction] end.
  subst r1 r2. clear HP HP' C1 C2 C3 E1 E2 E3 V1 V2 V3 BP BQ BK.
  destruct (bit e 64) eqn:B64.
  - rewrite (LT eq_refl) in *. cbn [orb] in *. destruct HQ as (t & -> & _ & _), HQ' as (t' & -> & _ & _). destruct HK as (v & -> & _ & _).
    destruct (K3 v eq_refl) as (v' & -> & KA & KB). cbn [app] in *. injection E as <- <- <-. eexists _, _. split; [reflexivity|]. cbn -[Z.shiftr Z.land bit]. rewrite KA, KB. auto.
  - destruct HQ as (-> & _ & _), HQ' as (-> & _ & _). cbn [app] in *. destruct (bit e 32) eqn:B32; cbn [orb] in *.
    + destruct HK as (v & -> & _ & _). destruct (K3 v eq_refl) as (v' & -> & KA & KB). cbn [app] in *. injection E as <- <- <-. eexists _, _. split; [reflexivity|]. cbn -[Z.shiftr Z.land bit]. rewrite KA, KB. auto.
    + destruct (bit e 16).
      * destruct HK as (v & -> & _ & _). destruct (K3 v eq_refl) as (v' & -> & KA & KB). cbn [app] in *. injection E as <- <- <-. eexists _, _. split; [reflexivity|]. cbn. auto.
      * destruct HK as (-> & _ & _), HK' as (-> & _ & _). cbn [app] in *. injection E as <- <- <-. eexists _, _. split; [reflexivity|]. cbn. auto.
Qed.

(** * The forwarding view and the receiving view agree *)
Lemma shape_dep pl d m : shape pl d m -> forall s out x, exists s' x', vp8_depacketize s pl out x = (s', Some (out ++ m, x')) /\
  (x = None -> x_key x' = starts_keyframe d pl).
Proof.
  intros SH s out x. destruct (shape_parse _ _ _ SH) as (_ & _ & _ & SK).
  assert (starts_keyframe d pl = match pl, m with b0 :: _, h :: _ => bit b0 16 && (Z.land b0 7 =? 0) && (Z.land h 1 =? 0) | _, _ => false end) as KEY.
  { unfold starts_keyframe. destruct pl as [|b0 r]; [reflexivity|]. destruct (bit b0 16); cbn [negb orb andb]; [|destruct m; reflexivity].
    destruct (Z.land b0 7 =? 0); cbn [negb orb andb]; [|destruct m; reflexivity].
    unfold rd_byte. rewrite <- SK. clear. generalize (Z.to_nat (payload_offset d)) as n, (b0 :: r) as l.
    induction n as [|n IH]; intro l; destruct l; cbn [nth_error skipn]; auto. }
  destruct SH as [b0 h r B|b0 e p q k h r pid tl0 key o1 o2 o3 B LT HP HQ HK].
  - unfold vp8_depacketize. rewrite B. cbn [orb]. eexists _, _. split; [reflexivity|]. intros ->. rewrite KEY. reflexivity.
  - rewrite KEY. clear KEY SK. unfold vp8_depacketize. rewrite B. destruct (bit e 64) eqn:B64.
    + rewrite (LT eq_refl) in *. cbn [negb andb orb] in *. destruct HQ as (t & -> & -> & ->). destruct HK as (v & -> & -> & ->).
      destruct (bit e 128); [destruct HP as (b & [(Bb & lo & -> & -> & ->)|(Bb & -> & -> & ->)])|destruct HP as (-> & -> & ->)]; cbn [app];
        rewrite ?Bb; cbv beta iota; (eexists _, _; split; [reflexivity|]; intros ->; reflexivity).
    + cbn [andb]. destruct HQ as (-> & -> & ->). destruct (bit e 32) eqn:B32; [|destruct (bit e 16) eqn:B16]; cbn [orb] in *.
      1,2: destruct HK as (v & -> & -> & ->).
      3: destruct HK as (-> & -> & ->).
      all: (destruct (bit e 128); [destruct HP as (b & [(Bb & lo & -> & -> & ->)|(Bb & -> & -> & ->)])|destruct HP as (-> & -> & ->)]; cbn [app];
        rewrite ?Bb; cbv beta iota; (eexists _, _; split; [reflexivity|]; intros ->; reflexivity)).
Qed.

Lemma dep_shape pl s out x s' o x' : vp8_depacketize s pl out x = (s', Some (o, x')) -> exists d m, shape pl d m /\ o = out ++ m.
Proof.
  unfold vp8_depacketize. intro E. destruct pl as [|b0 r]; [discriminate|].
  destruct (bit b0 128) eqn:B.
  2: { destruct r as [|h r]; [discriminate|]. cbn [orb] in E. eexists _, (h :: r). split; [apply sh0; exact B|]. congruence. }
  destruct r as [|e r]; [discriminate|]. destruct (bit e 64 && negb (bit e 32)) eqn:LT; [discriminate|].
  match type of E with match ?m with _ => _ end = _ => destruct m as [[pid1 r1]|] eqn:E1; [|discriminate] end.
  assert (exists p dp o1, r = p ++ r1 /\ (if bit e 128 then exists b, (bit b 128 = true /\ exists lo, p = [b; lo] /\ dp = Some (Z.lor (Z.shiftl (Z.land b 127) 8) lo, 2, true) /\ o1 = 4)
                             \/ (bit b 128 = false /\ p = [b] /\ dp = Some (Z.land b 127, 2, false) /\ o1 = 3)
     else p = [] /\ dp = None /\ o1 = 2)) as (p & dp & o1 & -> & HP).
  { destruct (bit e 128).
    - destruct r as [|b r']; [discriminate|]. destruct (bit b 128) eqn:Bb.
      + destruct r' as [|lo r'']; [discriminate|]. injection E1 as _ <-. exists [b; lo]. eexists _, 4. split; [reflexivity|]. exists b. left. split; [exact Bb|]. exists lo. auto.
      + injection E1 as _ <-. exists [b]. eexists _, 3. split; [reflexivity|]. exists b. right. auto.
    - injection E1 as _ <-. exists []. eexists None, 2. auto. }
  clear E1. destruct r1 as [|t0 r1]; [discriminate|].
  assert (exists q dt o2 r2, t0 :: r1 = q ++ r2 /\ (if bit e 64 then r1 else t0 :: r1) = r2 /\
    (if bit e 64 then exists t, q = [t] /\ dt = Some (t, o1) /\ o2 = o1 + 1 else q = [] /\ dt = None /\ o2 = o1)) as (q & dt & o2 & r2 & EQ & ER & HQ).
  { destruct (bit e 64); [exists [t0], (Some (t0, o1)), (o1 + 1), r1|exists [], None, o1, (t0 :: r1)]; repeat split; auto. exists t0; auto. }
  rewrite EQ, ER in *. destruct r2 as [|tk r2]; [discriminate|].
  assert (exists k dk o3 r3, tk :: r2 = k ++ r3 /\ (if bit e 32 || bit e 16 then r2 else tk :: r2) = r3 /\
    (if bit e 32 || bit e 16 then exists v, k = [v] /\ dk = (if bit e 16 then Some (v, o2) else None) /\ o3 = o2 + 1 else k = [] /\ dk = None /\ o3 = o2)) as (k & dk & o3 & r3 & EK & ER3 & HK).
  { destruct (bit e 32 || bit e 16); [exists [tk]; eexists _, (o2 + 1), r2|exists [], None, o2, (tk :: r2)]; repeat split; auto. exists tk; auto. }
  rewrite ER3 in E. rewrite EK. destruct r3 as [|h r3]; [discriminate|].
  eexists _, (h :: r3). split.
  - eapply sh1; eauto. intro H64. rewrite H64 in LT. destruct (bit e 32); [reflexivity|discriminate].
  - congruence.
Qed.

Lemma shape_detect pl d m : shape pl d m -> starts_keyframe d pl = detect_vp8_keyframe pl.
Proof.
  intro SH. unfold starts_keyframe, detect_vp8_keyframe. destruct SH as [b0 h r B|b0 e p q k h r pid tl0 key o1 o2 o3 B LT HP HQ HK].
  - rewrite B. reflexivity.
  - destruct (negb (bit b0 16) || negb (Z.land b0 7 =? 0)); [reflexivity|]. rewrite B.
    match goal with |- context [rd_byte ?l 1] => change (rd_byte l 1) with (Some e) end. cbv beta iota. cbn [payload_offset].
    assert ((if bit e 128 then match rd_byte (b0 :: e :: p ++ q ++ k ++ h :: r) 2 with None => None | Some b => Some (if bit b 128 then 4 else 3) end else Some 2) = Some o1) as ->.
    { destruct (bit e 128); [|destruct HP as (_ & _ & ->); reflexivity].
      destruct HP as (b & [(Bb & lo & -> & -> & ->)|(Bb & -> & -> & ->)]);
      match goal with |- context [rd_byte ?l 2] => change (rd_byte l 2) with (Some b) end; cbv beta iota; rewrite Bb; reflexivity. }
    cbv beta iota zeta. assert ((if bit e 32 || bit e 16 then (if bit e 64 then o1 + 1 else o1) + 1 else if bit e 64 then o1 + 1 else o1) = o3) as ->; [|reflexivity].
    destruct (bit e 64); [destruct HQ as (? & _ & _ & ->)|destruct HQ as (_ & _ & ->)];
    (destruct (bit e 32 || bit e 16); [destruct HK as (? & _ & _ & ->)|destruct HK as (_ & _ & ->)]; reflexivity).
Qed.

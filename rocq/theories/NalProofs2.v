From Verif Require Import Base BaseFacts Brute BufRxSpec Vp8Model Vp8Spec Vp8Proofs H264Model H264Spec H264Proofs NalModel NalSpec NalProofs.

Definition nframed (ns : list (list Z)) : list Z := framed false ns.
Lemma nframed_app a b : nframed (a ++ b) = nframed a ++ nframed b.
Proof. unfold nframed, framed. rewrite map_app, concat_app. reflexivity. Qed.
Lemma nframed_one n : nframed [n] = start_code ++ n.
Proof. unfold nframed, framed. cbn [map concat]. apply app_nil_r. Qed.
Definition imark (c : nal_codec) (n : list Z) (x : option bool) : option bool :=
  Some (match x with Some k => random_access c (nty c n) || k | None => random_access c (nty c n) end).
Definition imarks (c : nal_codec) (x : option bool) (ns : list (list Z)) : option bool := fold_left (fun x n => imark c n x) ns x.
Lemma mark_imark c n x : bytes_ok n -> 2 <= zlen n -> mark_irap c (hd2 n) x = imark c n x.
Proof.
  intros B L. destruct n as [|b0 [|b1 r]]; try (cbn in L; lia). pose proof (Forall_inv B) as B0. pose proof (Forall_inv (Forall_inv_tail B)) as B1.
  unfold mark_irap, imark. cbn [hd2]. rewrite (htype_nty c b0 b1 r) by assumption. rewrite irap_spec. reflexivity.
Qed.
Lemma nalu_split c n : nalu c n -> exists b0 b1 d, n = b0 :: b1 :: d /\ d <> [] /\ byte_ok b0 /\ byte_ok b1 /\ b0 < 128.
Proof.
  intros (B & L & F & _). destruct n as [|b0 [|b1 d]]; try (cbn in L; lia). exists b0, b1, d. cbn [nth] in F. split; [reflexivity|].
  split; [intros ->; cbn in L; lia|]. split; [exact (Forall_inv B)|]. split; [exact (Forall_inv (Forall_inv_tail B))|exact F].
Qed.
Lemma nalu_type c b0 b1 d : nalu c (b0 :: b1 :: d) -> htype c (hword b0 b1) = nty c (b0 :: b1 :: d).
Proof. intros (B & _). apply htype_nty; [exact (Forall_inv B)|exact (Forall_inv (Forall_inv_tail B))]. Qed.
Lemma zlen_pos (l : list Z) : l <> [] -> 1 <= zlen l.
Proof. intro N. destruct l; [congruence|]. rewrite zlen_cons. pose proof (zlen_nonneg l). lia. Qed.
Lemma zlen_donl d : zlen (donl_bytes d) = donl_size d.
Proof. destruct d; reflexivity. Qed.
Definition dn (d : option Z) : bool := match d with Some _ => true | None => false end.

(** ** single unit packets *)
Lemma single_round c d fb n out x : nalu c n ->
  nal_depacketize c (mkNd (dn d) fb) (single d n) out x = (mkNd (dn d) fb, Some (out ++ nframed [n], imark c n x)) /\
  zlen (single d n) = zlen n + donl_size d /\ nal_detect_key c (single d n) = random_access c (nty c n) /\ nal_head c (single d n) = true.
Proof.
  intro N. pose proof N as (B & L & F & R & _). destruct (nalu_split c n N) as (b0 & b1 & r & -> & NE & B0 & B1 & F0).
  pose proof (nalu_type c b0 b1 r N) as T. pose proof (nty_range c _ B ltac:(lia)) as TR. pose proof (hf_eq b0 b1 B0 B1) as HF. replace (128 <=? b0) with false in HF by lia.
  pose proof (zlen_pos r NE) as ZR.
  assert (single d (b0 :: b1 :: r) = b0 :: b1 :: donl_bytes d ++ r) as E by reflexivity. rewrite E.
  assert (zlen (b0 :: b1 :: donl_bytes d ++ r) = zlen (b0 :: b1 :: r) + donl_size d) as Z. { rewrite !zlen_cons, zlen_app, zlen_donl. lia. }
  assert ((match c with Hevc => htype c (hword b0 b1) =? 50 | Vvc => false end) = false /\ (htype c (hword b0 b1) =? t_fu c) = false /\ (htype c (hword b0 b1) =? t_ap c) = false) as (T1 & T2 & T3).
  { rewrite T. destruct c; cbn [reserved In t_fu t_ap] in *; lia. }
  split; [|split; [exact Z|split]].
  - unfold nal_depacketize. replace (zlen _ <=? 2) with false by (rewrite Z; destruct d; cbn [donl_size]; lia). cbn [hd2]. rewrite HF, T1, T2, T3. f_equal.
    unfold dep_single. cbn [might_need_donl]. replace (dn d && _) with false.
    + f_equal. f_equal.
      * f_equal. rewrite nframed_one. f_equal. destruct d; reflexivity.
      * change (hd2 (b0 :: b1 :: donl_bytes d ++ r)) with (hd2 (b0 :: b1 :: r)). apply mark_imark; [exact B|lia].
    + rewrite Z. rewrite !zlen_cons. destruct d; cbn [dn donl_size andb]; lia.
  - unfold nal_detect_key. replace (zlen _ <? 2) with false by (rewrite Z; destruct d; cbn [donl_size]; lia). cbn [hd2]. rewrite T2, T3, T, irap_spec. destruct c; [|reflexivity].
    unfold random_access. cbn [existsb]. cbn [reserved In] in R. lia.
  - unfold nal_head. replace (zlen _ <? 2) with false by (rewrite Z; destruct d; cbn [donl_size]; lia). cbn [hd2]. rewrite HF, T2. reflexivity.
Qed.

(** ** fragments *)
Section Fu.
Variables (c : nal_codec) (b0 b1 x0 y0 : Z) (need : bool).
Hypothesis (X : byte_ok x0) (Y : byte_ok y0) (XF : x0 < 128) (XT : htype c (hword x0 y0) = t_fu c) (TR : 0 <= htype c (hword b0 b1) < match c with Hevc => 64 | Vvc => 32 end)
  (RT : retype c (hword x0 y0) (htype c (hword b0 b1)) = [b0; b1]).
Let t := htype c (hword b0 b1).

Lemma fu_packet s e d dnb fb out x : d <> [] -> (s = true -> zlen dnb = if need then 2 else 0) ->
  nal_depacketize c (mkNd need fb) ([x0; y0] ++ [fu_header c s e t] ++ (if s then dnb else []) ++ d) out x =
  (let buf := option_map (fun b => b ++ d) (if s then Some [] else fb) in
   (mkNd need buf, if e then match buf with Some b => Some (out ++ start_code ++ [b0; b1] ++ b, mark_irap c (hword b0 b1) x) | None => Some (out, x) end else Some (out, x))).
Proof.
  intros NE DB. pose proof (zlen_pos d NE) as ZD. destruct (fu_facts c s e t TR) as (F1 & F2 & F3). cbn [app].
  pose proof (hf_eq x0 y0 X Y) as HF. replace (128 <=? x0) with false in HF by lia.
  assert (0 <= zlen (if s then dnb else [])) as ZB by apply zlen_nonneg.
  unfold nal_depacketize. replace (zlen _ <=? 2) with false by (rewrite !zlen_cons, zlen_app; lia). cbn [hd2]. rewrite HF, XT.
  replace (match c with Hevc => t_fu c =? 50 | Vvc => false end) with false by (destruct c; reflexivity). rewrite Z.eqb_refl.
  unfold dep_fu. match goal with |- context [skipn 2 (x0 :: y0 :: ?r)] => change (skipn 2 (x0 :: y0 :: r)) with r end. cbn [might_need_donl fu_buffer]. cbv zeta. rewrite F1, F2, F3. rewrite zlen_app.
  replace (_ <? match c with Hevc => 1 | Vvc => 0 end) with false by (destruct c; lia).
  assert ((s && need && (zlen (if s then dnb else []) + zlen d <? 2 + match c with Hevc => 1 | Vvc => 0 end)) = false /\
          (if s && need then skipn 2 ((if s then dnb else []) ++ d) else (if s then dnb else []) ++ d) = d) as [-> ->].
  { destruct s; [|cbn [andb app]; auto]. specialize (DB eq_refl). destruct need; cbn [andb].
    - split; [destruct c; lia|]. destruct dnb as [|? [|? [|? dnb]]]; try discriminate DB; [reflexivity|]. rewrite !zlen_cons in DB. pose proof (zlen_nonneg dnb). lia.
    - split; [reflexivity|]. destruct dnb; [reflexivity|]. rewrite zlen_cons in DB. pose proof (zlen_nonneg dnb). lia. }
  cbv zeta. f_equal. destruct e; [|reflexivity]. cbn [hd2]. unfold t. rewrite RT. cbn [hd2]. reflexivity.
Qed.
Lemma fu_head s e q : nal_head c ([x0; y0] ++ [fu_header c s e t] ++ q) = s /\
  nal_detect_key c ([x0; y0] ++ [fu_header c s e t] ++ q) = s && irap c t /\ nal_tail c false ([x0; y0] ++ [fu_header c s e t] ++ q) = e.
Proof.
  destruct (fu_facts c s e t TR) as (F1 & F2 & F3). pose proof (hf_eq x0 y0 X Y) as HF. replace (128 <=? x0) with false in HF by lia. cbn [app].
  pose proof (zlen_nonneg q). unfold nal_head, nal_detect_key, nal_tail. rewrite !zlen_cons. replace (_ <? 2) with false by lia. cbn [hd2 skipn]. rewrite HF, XT, Z.eqb_refl, F1, F2, F3.
  replace (t_fu c =? t_ap c) with false by (destruct c; reflexivity). auto.
Qed.

Lemma fu_rest fm m dnb : 0 < m -> forall fuel data buf out x, data <> [] -> (length data <= fuel)%nat ->
  let ps := fu_loop fuel c [x0; y0] t dnb false fm m data in
  feed (nal_depacketize c) (mkNd need (Some buf)) ps out x =
    (mkNd need (Some (buf ++ data)), Some (out ++ start_code ++ [b0; b1] ++ buf ++ data, mark_irap c (hword b0 b1) x)) /\
  Forall (fun p => 0 < zlen p <= 3 + m) ps /\ existsb (nal_detect_key c) ps = false /\ Forall (fun p => nal_head c p = false) ps.
Proof.
  intros M. induction fuel as [|fuel IH]; intros data buf out x NE L; [destruct data; [congruence|cbn in L; lia]|].
  cbn [fu_loop]. destruct data as [|a data]; [congruence|]. remember (a :: data) as l eqn:El. pose proof (zlen_pos l NE) as ZL.
  set (tk := Z.min (zlen l) m). assert (0 < tk <= zlen l /\ tk <= m) as TK by lia. clearbody tk.
  assert (zlen (firstn (Z.to_nat tk) l) = tk) as ZF by (unfold zlen in *; rewrite firstn_length; lia).
  assert (firstn (Z.to_nat tk) l <> []) as FN by (intro E; rewrite E in ZF; cbn in ZF; lia).
  destruct (fu_head false (tk =? zlen l) ([] ++ firstn (Z.to_nat tk) l)) as (H1 & H2 & _).
  cbv zeta. cbn [feed]. rewrite (fu_packet false (tk =? zlen l) (firstn (Z.to_nat tk) l) dnb) by (assumption || discriminate). cbn [option_map].
  destruct (tk =? zlen l) eqn:Q.
  - assert (firstn (Z.to_nat tk) l = l) as FE by (apply firstn_all2; unfold zlen in *; lia). assert (skipn (Z.to_nat tk) l = []) as SE by (apply skipn_all2; unfold zlen in *; lia).
    rewrite SE, FE in *. assert (fu_loop fuel c [x0; y0] t dnb false fm m [] = []) as -> by (destruct fuel; reflexivity). cbn [feed existsb].
    split; [reflexivity|]. split; [constructor; [|constructor]|].
    { rewrite !zlen_app. change (zlen [x0; y0]) with 2. change (zlen [fu_header c false true t]) with 1. change (zlen (@nil Z)) with 0. lia. }
    split; [rewrite H2; reflexivity|constructor; [exact H1|constructor]].
  - assert (skipn (Z.to_nat tk) l <> []) as SN. { intro E. apply (f_equal zlen) in E. unfold zlen in *. rewrite skipn_length in E. change (Z.of_nat (length (@nil Z))) with 0 in E. lia. }
    destruct (IH (skipn (Z.to_nat tk) l) (buf ++ firstn (Z.to_nat tk) l) out x SN) as (I1 & I2 & I3 & I4).
    { rewrite skipn_length. unfold zlen in *. lia. }
    cbv zeta in I1. rewrite I1. split.
    + rewrite <- !app_assoc, firstn_skipn. reflexivity.
    + split; [|split].
      * constructor; [|exact I2]. rewrite !zlen_app. change (zlen [x0; y0]) with 2. change (zlen [fu_header c false false t]) with 1. change (zlen (@nil Z)) with 0. lia.
      * cbn [existsb]. rewrite H2, I3. reflexivity.
      * constructor; assumption.
Qed.
Lemma fu_all fm m dnb data fb out x : 0 < fm -> 0 < m -> fm < zlen data -> zlen dnb = (if need then 2 else 0) -> fm + zlen dnb <= m -> 
  let ps := fu_loop (length (b0 :: b1 :: data)) c [x0; y0] t dnb true fm m data in
  feed (nal_depacketize c) (mkNd need fb) ps out x =
    (mkNd need (Some data), Some (out ++ start_code ++ b0 :: b1 :: data, mark_irap c (hword b0 b1) x)) /\
  Forall (fun p => 0 < zlen p <= 3 + m) ps /\ existsb (nal_detect_key c) ps = irap c t /\
  (exists p r, ps = p :: r /\ nal_head c p = true /\ Forall (fun p => nal_head c p = false) r).
Proof.
  intros FM M LD DB LE. change (length (b0 :: b1 :: data)) with (S (S (length data))). remember (S (length data)) as fuel eqn:EF. cbn [fu_loop]. destruct data as [|a data]; [cbn in LD; lia|]. remember (a :: data) as l eqn:El. cbv zeta. rewrite Z.min_r by lia.
  assert (zlen (firstn (Z.to_nat fm) l) = fm) as ZF by (unfold zlen in *; rewrite firstn_length; lia).
  assert (firstn (Z.to_nat fm) l <> []) as FN by (intro E; rewrite E in ZF; cbn in ZF; lia).
  replace (fm =? zlen l) with false by lia.
  destruct (fu_head true false (dnb ++ firstn (Z.to_nat fm) l)) as (H1 & H2 & _).
  assert (skipn (Z.to_nat fm) l <> []) as SN. { intro E. apply (f_equal zlen) in E. unfold zlen in *. rewrite skipn_length in E. change (Z.of_nat (length (@nil Z))) with 0 in E. lia. }
  destruct (fu_rest fm m dnb M fuel (skipn (Z.to_nat fm) l) (firstn (Z.to_nat fm) l) out x SN) as (I1 & I2 & I3 & I4).
  { rewrite skipn_length. lia. }
  cbn [feed]. rewrite (fu_packet true false (firstn (Z.to_nat fm) l) dnb fb) by (assumption || (intros _; exact DB)). cbn [option_map app]. cbv zeta in I1. rewrite I1. rewrite firstn_skipn.
  split; [reflexivity|]. split; [|split].
  - constructor; [|exact I2]. rewrite !zlen_cons, zlen_app. pose proof (zlen_nonneg dnb). lia.
  - cbn [app] in H2. cbn [existsb]. rewrite H2, I3. apply orb_false_r.
  - eexists _, _. split; [reflexivity|]. split; [exact H1|exact I4].
Qed.
End Fu.

(** ** decoding order numbers *)
Lemma be16_field v : 0 <= v < U16 -> v / 256 mod 256 * 256 + v mod 256 = v.
Proof. unfold U16. intro H. dlia. Qed.
Lemma fu_start c s e t : 0 <= t < match c with Hevc => 64 | Vvc => 32 end -> (128 <=? fu_header c s e t) = s.
Proof.
  intro T. pose proof (brute 64 (fun t => forallb (fun '(s, e) => let f := fu_header Hevc s e t in let g := fu_header Vvc s e t in Bool.eqb (128 <=? f) s && Bool.eqb (128 <=? g) s) [(true, true); (true, false); (false, true); (false, false)]) ltac:(vm_compute; reflexivity) t ltac:(destruct c; lia)) as Q.
  cbv beta in Q. rewrite forallb_forall in Q. specialize (Q (s, e)). cbv beta iota zeta in Q. rewrite !andb_true_iff, !eqb_true_iff in Q.
  destruct Q as [Q1 Q2]; [destruct s, e; cbn; auto|]. destruct c; assumption.
Qed.
Lemma donl_single c v n : nalu c n -> 0 <= v < U16 -> donl_of c (single (Some v) n) = Some v.
Proof.
  intros N V. pose proof N as (B & L & F & R & _). destruct (nalu_split c n N) as (b0 & b1 & r & -> & NE & B0 & B1 & F0).
  change (single (Some v) (b0 :: b1 :: r)) with (b0 :: b1 :: v / 256 mod 256 :: v mod 256 :: r). unfold donl_of.
  assert (forall l, nty c (b0 :: b1 :: l) = nty c (b0 :: b1 :: r)) as TE by (intro l; destruct c; reflexivity). rewrite TE.
  replace (_ =? _) with false by (destruct c; cbn [reserved In] in R; lia). unfold field16. cbn [nth]. rewrite be16_field by exact V. reflexivity.
Qed.
Lemma donl_fu c x0 y0 s e t v d : byte_ok x0 -> byte_ok y0 -> htype c (hword x0 y0) = t_fu c -> 0 <= t < match c with Hevc => 64 | Vvc => 32 end -> 0 <= v < U16 ->
  donl_of c ([x0; y0] ++ [fu_header c s e t] ++ (if s then be16 v else []) ++ d) = if s then Some v else None.
Proof.
  intros X Y XT T V. cbn [app]. unfold donl_of. rewrite <- htype_nty by assumption. rewrite XT. replace (t_fu c =? _) with true by (destruct c; reflexivity).
  cbn [nth]. rewrite fu_start by exact T. destruct s; [|reflexivity]. unfold field16, be16. cbn [app nth]. rewrite be16_field by exact V. reflexivity.
Qed.
Lemma donl_fu_loop c x0 y0 t v fm m : byte_ok x0 -> byte_ok y0 -> htype c (hword x0 y0) = t_fu c -> 0 <= t < match c with Hevc => 64 | Vvc => 32 end -> 0 <= v < U16 ->
  forall fuel data, Forall (fun q => donl_of c q = None) (fu_loop fuel c [x0; y0] t (be16 v) false fm m data).
Proof.
  intros X Y XT T V. induction fuel as [|fuel IH]; intro data; [constructor|]. cbn [fu_loop]. destruct data as [|a data]; constructor; [|apply IH].
  apply (donl_fu c x0 y0 false _ t v _ X Y XT T V).
Qed.
Lemma donl_unit c v mtu vs s p n : nalu c n -> 0 <= v < U16 -> 6 <= mtu <= 1200 -> exists q r, snd (emit_unit c (mkNp vs s p (Some v)) n mtu) = q :: r /\ donl_of c q = Some v /\ Forall (fun q => donl_of c q = None) r.
Proof.
  intros N V M. pose proof N as (B & L & _). destruct (nalu_split c n N) as (b0 & b1 & r & E & NE & B0 & B1 & F0).
  unfold emit_unit. cbn [n_donl n_vps n_sps n_pps]. cbv zeta. destruct (single_size c (Some v) n <=? mtu) eqn:Q.
  - eexists _, []. split; [reflexivity|]. split; [apply donl_single; assumption|constructor].
  - unfold max_packet. cbn [overhead]. replace ((zlen _ <=? 2) || _) with false by lia. subst n. cbn [hd2 skipn snd].
    destruct (hdr_facts c b0 b1 B0 B1 F0) as (x0 & y0 & E1 & X & Y & XF & XT & RT). rewrite E1.
    pose proof (nalu_type c b0 b1 r N) as T. pose proof (nty_range c _ B ltac:(lia)) as TR. rewrite <- T in TR.
    change (length (b0 :: b1 :: r)) with (S (S (length r))). remember (S (length r)) as fuel. cbn [fu_loop]. destruct r as [|a r]; [congruence|].
    eexists _, _. split; [reflexivity|]. split; [apply (donl_fu c x0 y0 true _ _ v _ X Y XT TR V)|apply donl_fu_loop; assumption].
Qed.

(** ** one unit that is neither dropped nor held *)
Lemma unit_ok c d mtu v s p fb n out x : nalu c n -> 4 + donl_size d <= mtu <= 1200 ->
  exists fb', let r := emit_unit c (mkNp v s p d) n mtu in
  fst r = mkNp v s p (donl_add d 1) /\
  feed (nal_depacketize c) (mkNd (dn d) fb) (snd r) out x = (mkNd (dn d) fb', Some (out ++ nframed [n], imark c n x)) /\
  Forall (fun q => 0 < zlen q <= largest c d mtu) (snd r) /\ existsb (nal_detect_key c) (snd r) = random_access c (nty c n) /\
  (exists q t, snd r = q :: t /\ nal_head c q = true).
Proof.
  intros N M. destruct (nalu_split c n N) as (b0 & b1 & r & E & NE & B0 & B1 & F0). subst n. pose proof N as (B & L & _).
  assert (overhead d = donl_size d /\ 0 <= donl_size d) as [OV OZ] by (destruct d; cbn; lia).
  unfold emit_unit. cbn [n_donl n_vps n_sps n_pps]. cbv zeta. destruct (single_size c d (b0 :: b1 :: r) <=? mtu) eqn:Q.
  - exists fb. destruct (single_round c d fb (b0 :: b1 :: r) out x N) as (S1 & S2 & S3 & S4). cbn [fst snd feed existsb]. rewrite S1.
    split; [reflexivity|]. split; [reflexivity|]. split; [|split].
    + constructor; [|constructor]. rewrite S2. unfold single_size in Q. unfold largest. destruct c, d; cbn [donl_size overhead] in *; lia.
    + rewrite S3. apply orb_false_r.
    + eexists _, _. split; [reflexivity|exact S4].
  - unfold max_packet. replace ((zlen _ <=? 2) || _) with false by lia. exists (Some r). cbn [fst snd]. split; [reflexivity|].
    cbn [hd2 skipn]. destruct (hdr_facts c b0 b1 B0 B1 F0) as (x0 & y0 & E1 & X & Y & XF & XT & RT). rewrite E1. rewrite OV, Z.min_l by lia.
    pose proof (nalu_type c b0 b1 r N) as T. pose proof (nty_range c _ B ltac:(lia)) as TR. rewrite <- T in TR.
    unfold single_size in Q. rewrite !zlen_cons in Q.
    destruct (fu_all c b0 b1 x0 y0 (dn d) X Y XF XT TR RT (mtu - 3 - donl_size d) (mtu - 3) (donl_bytes d) r fb out x) as (A1 & A2 & A3 & A4); [lia|lia|destruct c, d; cbn [overhead] in Q; cbn [donl_size]; lia|destruct d; reflexivity|rewrite zlen_donl; lia|].
    rewrite A1. split; [|split; [|split]].
    + rewrite nframed_one. f_equal. f_equal. f_equal. change (hword b0 b1) with (hd2 (b0 :: b1 :: r)). apply mark_imark; [exact B|lia].
    + eapply Forall_impl; [|exact A2]. intros q H. cbv beta in H. unfold largest. destruct c, d; cbn [donl_size]; lia.
    + rewrite A3, irap_spec, T. reflexivity.
    + destruct A4 as (q & tl & A4 & A5 & _). exists q, tl. auto.
Qed.

From Verif Require Import Base BaseFacts Brute BufRxSpec Vp8Model Vp8Spec Vp8Proofs Vp9Model Vp9Spec Vp9Proofs.

(** * Reading back what RFC 9628 writes *)
Definition same (s s' : vp9d) : Prop :=
  d_fl s' = d_fl s /\ d_pid s' = d_pid s /\ d_tid s' = d_tid s /\ d_sid s' = d_sid s /\ d_tl0 s' = d_tl0 s.

Lemma dec_pid s v r ix : pid_ok v -> parse_picture_id s (enc_pid v ++ r) ix = (set_pid s (snd v), Ok (r, ix + zlen (enc_pid v))).
Proof.
  destruct v as [long v]. unfold pid_ok, enc_pid, parse_picture_id. cbn [fst snd]. destruct long; intro H; cbn [app].
  - pose proof (brute 32768 (fun v => bit (128 + v / 256) 128 && (Z.lor (Z.shiftl (Z.land (128 + v / 256) 127) 8) (v mod 256) =? v))
      ltac:(vm_compute; reflexivity) v H) as Q. cbn beta in Q. apply andb_prop in Q. destruct Q as (Q1 & Q2). apply Z.eqb_eq in Q2.
    rewrite Q1, Q2. change (zlen [_; _]) with 2. do 3 f_equal. lia.
  - pose proof (brute 128 (fun v => negb (bit v 128) && (Z.land v 127 =? v)) ltac:(vm_compute; reflexivity) v H) as Q.
    cbn beta in Q. apply andb_prop in Q. destruct Q as (Q1 & Q2). apply Z.eqb_eq in Q2. apply negb_true_iff in Q1.
    rewrite Q1, Q2. reflexivity.
Qed.
Lemma lay_byte t u i d : 0 <= t < 8 -> 0 <= i < 3 ->
  let b := t * 32 + b2z u * 16 + i * 2 + b2z d in
  Z.shiftr b 5 = t /\ bit b 16 = u /\ Z.land (Z.shiftr b 1) 7 = i /\ bit b 1 = d.
Proof.
  intros T I. pose proof (brute2 8 3 (fun t i => forallb (fun u => forallb (fun d =>
    let b := t * 32 + b2z u * 16 + i * 2 + b2z d in
    (Z.shiftr b 5 =? t) && Bool.eqb (bit b 16) u && (Z.land (Z.shiftr b 1) 7 =? i) && Bool.eqb (bit b 1) d) [true; false]) [true; false])
    ltac:(vm_compute; reflexivity) t i T I) as Q. cbn beta in Q.
  rewrite forallb_forall in Q. specialize (Q u ltac:(destruct u; cbn; auto)).
  rewrite forallb_forall in Q. specialize (Q d ltac:(destruct d; cbn; auto)). cbv zeta in Q |- *.
  apply andb_prop in Q. destruct Q as (Q & Q4). apply andb_prop in Q. destruct Q as (Q & Q3). apply andb_prop in Q. destruct Q as (Q1 & Q2).
  apply Z.eqb_eq in Q1, Q3. apply Bool.eqb_prop in Q2, Q4. auto.
Qed.
Definition put_lay (s : vp9d) (flex : bool) (l : lay9) : vp9d :=
  let s := set_layer s (l_tid l) (l_u l) (l_sid l) (l_d l) in if flex then s else set_tl0 s (l_tl0 l).
Lemma dec_lay s flex l r ix : lay_ok l -> f_f (d_fl s) = flex ->
  parse_layer_info s (enc_lay flex l ++ r) ix = (put_lay s flex l, Ok (r, ix + zlen (enc_lay flex l))).
Proof.
  intros (T & I & B) F. unfold parse_layer_info, enc_lay, put_lay. destruct (lay_byte (l_tid l) (l_u l) (l_sid l) (l_d l) T I) as (E1 & E2 & E3 & E4).
  cbn [app]. cbv zeta in *. rewrite E1, E2, E3, E4. cbn [d_sid set_layer d_fl]. destruct (3 <=? l_sid l) eqn:Q; [lia|]. rewrite F.
  destruct flex; cbn [app]; [reflexivity|]. change (zlen [_; _]) with 2. do 3 f_equal. lia.
Qed.
Lemma ref_byte v : 0 <= v < 128 -> Z.shiftr (v * 2 + 1) 1 = v /\ bit (v * 2 + 1) 1 = true /\ Z.shiftr (v * 2) 1 = v /\ bit (v * 2) 1 = false.
Proof.
  intro H. pose proof (brute 128 (fun v => (Z.shiftr (v * 2 + 1) 1 =? v) && bit (v * 2 + 1) 1 && (Z.shiftr (v * 2) 1 =? v) && negb (bit (v * 2) 1))
    ltac:(vm_compute; reflexivity) v H) as Q. cbn beta in Q.
  apply andb_prop in Q. destruct Q as (Q & Q4). apply andb_prop in Q. destruct Q as (Q & Q3). apply andb_prop in Q. destruct Q as (Q1 & Q2).
  apply Z.eqb_eq in Q1, Q3. apply negb_true_iff in Q4. auto.
Qed.
Lemma dec_refs : forall rs fuel num s r ix, rs <> [] -> Forall (fun v => 0 <= v < 128) rs -> 0 <= num -> num + zlen rs <= 3 -> 3 - num <= Z.of_nat fuel -> ok9 s ->
  exists pd, parse_ref_indices fuel num s (enc_refs rs ++ r) ix = (set_pdiff s pd, Ok (r, ix + zlen (enc_refs rs))) /\ length pd = 3%nat.
Proof.
  induction rs as [|v rs IH]; intros fuel num s r ix NE F N L FU K; [congruence|].
  inversion F as [|? ? Fv Fr]; subst. rewrite zlen_cons in L. pose proof (zlen_nonneg rs).
  destruct fuel as [|fuel]; [lia|]. cbn [parse_ref_indices]. destruct (num =? 3) eqn:Q; [lia|].
  destruct (ref_byte v Fv) as (E1 & E2 & E3 & E4). destruct rs as [|v2 rs].
  - cbn [enc_refs app]. rewrite E3, E4.
    destruct (upd_some (fun _ => v) (d_pdiff s) (Z.to_nat num)) as (l & E & Ll & _). { destruct K as (-> & _). cbn in L. lia. }
    rewrite E. exists l. split; [reflexivity|]. rewrite Ll. apply K.
  - set (q := v2 :: rs) in *. change (enc_refs (v :: q)) with ((v * 2 + 1) :: enc_refs q). cbn [app]. rewrite E1, E2.
    destruct (upd_some (fun _ => v) (d_pdiff s) (Z.to_nat num)) as (l & E & Ll & _). { destruct K as (-> & _). lia. }
    rewrite E. cbv zeta.
    destruct (IH fuel (num + 1) (set_pdiff s l) r (ix + 1)) as (pd & P1 & P2); try assumption; try lia; [unfold q; discriminate| |].
    { unfold ok9 in *. cbn [d_pdiff set_pdiff d_width d_height]. rewrite Ll. exact K. }
    exists pd. split; [|exact P2]. rewrite P1. rewrite zlen_cons. apply f_equal2; [reflexivity|]. do 2 f_equal. lia.
Qed.
Lemma dec_sizes : forall l i s r, Forall (fun x => 0 <= fst x < 65536 /\ 0 <= snd x < 65536) l -> (i + length l <= 3)%nat -> ok9 s ->
  exists w h, parse_sizes (length l) i s (flat_map enc_size l ++ r) = (set_wh s w h, Ok r) /\ length w = 3%nat /\ length h = 3%nat /\
    (forall j, (j < i)%nat -> nth_error w j = nth_error (d_width s) j /\ nth_error h j = nth_error (d_height s) j) /\
    (forall j a b, nth_error l j = Some (a, b) -> nth_error w (i + j) = Some (Some a) /\ nth_error h (i + j) = Some (Some b)).
Proof.
  induction l as [|[a b] l IH]; intros i s r F I K; cbn [length parse_sizes flat_map app].
  - exists (d_width s), (d_height s). split; [destruct s; reflexivity|]. split; [apply K|]. split; [apply K|]. split; [auto|]. intros [|j] ? ? H; discriminate H.
  - inversion F as [|? ? Fv Fr]; subst. cbn [fst snd] in Fv. cbn in I. cbn [enc_size app fst snd].
    assert (forall v, v / 256 * 256 + v mod 256 = v) as DM by (intro v; dlia). rewrite !DM.
    destruct (upd_some (fun _ => Some a) (d_width s) i) as (w & E & Lw & Nw). { destruct K as (_ & -> & _). lia. }
    destruct (upd_some (fun _ => Some b) (d_height s) i) as (h & E2 & Lh & Nh). { destruct K as (_ & _ & ->). lia. }
    rewrite E. cbv zeta. cbn [d_height set_wh d_width]. rewrite E2.
    destruct (IH (S i) (set_wh (set_wh s w (d_height s)) w h) r Fr ltac:(lia)) as (w2 & h2 & P1 & P2 & P3 & P4 & P5).
    { unfold ok9 in *. cbn [d_pdiff set_wh d_width d_height]. rewrite Lw, Lh. exact K. }
    cbn [d_width d_height set_wh] in P4. exists w2, h2. split; [rewrite P1; reflexivity|]. split; [exact P2|]. split; [exact P3|]. split.
    + intros j J. destruct (P4 j ltac:(lia)) as (-> & ->). rewrite Nw, Nh. destruct (Nat.eqb_spec j i); [lia|auto].
    + intros [|j] a' b' H; [|specialize (P5 j a' b' H); rewrite <- Nat.add_succ_comm; exact P5]. injection H as <- <-. rewrite Nat.add_0_r.
      destruct (P4 i ltac:(lia)) as (-> & ->). rewrite Nw, Nh, Nat.eqb_refl.
      destruct (nth_error (d_width s) i) eqn:X1; [|apply nth_error_None in X1; destruct K as (_ & K2 & _); lia].
      destruct (nth_error (d_height s) i) eqn:X2; [|apply nth_error_None in X2; destruct K as (_ & _ & K3); lia]. split; reflexivity.
Qed.
Lemma dec_pdiffs : forall l i s r ix, (i < length (d_pgpdiff s))%nat ->
  exists pd, parse_pdiffs (length l) i s (l ++ r) ix = (set_pg s (d_pgtid s) (d_pgu s) pd, Ok (r, ix + zlen l)) /\ length pd = length (d_pgpdiff s).
Proof.
  induction l as [|b l IH]; intros i s r ix I; cbn [length parse_pdiffs app].
  - exists (d_pgpdiff s). split; [|reflexivity]. destruct s. change (zlen (@nil Z)) with 0. apply f_equal2; [reflexivity|]. do 2 f_equal. lia.
  - destruct (upd_some (fun l => l ++ [b]) (d_pgpdiff s) i I) as (q & E & L & _). rewrite E.
    destruct (IH i (set_pg s (d_pgtid s) (d_pgu s) q) r (ix + 1)) as (pd & P1 & P2); [cbn [d_pgpdiff set_pg]; lia|].
    exists pd. split; [|cbn [d_pgpdiff set_pg] in P2; lia]. rewrite P1, zlen_cons. apply f_equal2; [reflexivity|]. do 2 f_equal. lia.
Qed.
Lemma pic_byte t u k : 0 <= t < 8 -> 0 <= k < 4 ->
  let b := t * 32 + b2z u * 16 + k * 4 in Z.shiftr b 5 = t /\ bit b 16 = u /\ Z.land (Z.shiftr b 2) 3 = k.
Proof.
  intros T I. pose proof (brute2 8 4 (fun t k => forallb (fun u =>
    let b := t * 32 + b2z u * 16 + k * 4 in
    (Z.shiftr b 5 =? t) && Bool.eqb (bit b 16) u && (Z.land (Z.shiftr b 2) 3 =? k)) [true; false])
    ltac:(vm_compute; reflexivity) t k T I) as Q. cbn beta in Q.
  rewrite forallb_forall in Q. specialize (Q u ltac:(destruct u; cbn; auto)). cbv zeta in Q |- *.
  apply andb_prop in Q. destruct Q as (Q & Q3). apply andb_prop in Q. destruct Q as (Q1 & Q2).
  apply Z.eqb_eq in Q1, Q3. apply Bool.eqb_prop in Q2. auto.
Qed.
Lemma dec_group : forall g i s r ix, Forall pic_ok g -> (i <= length (d_pgpdiff s))%nat ->
  exists t u pd, parse_group (length g) i s (flat_map enc_pic g ++ r) ix = (set_pg s t u pd, Ok (r, ix + zlen (flat_map enc_pic g))) /\
    length t = (length (d_pgtid s) + length g)%nat.
Proof.
  induction g as [|p g IH]; intros i s r ix F I; cbn [length parse_group flat_map app].
  - exists (d_pgtid s), (d_pgu s), (d_pgpdiff s). split; [|lia]. destruct s. change (zlen (@nil Z)) with 0. apply f_equal2; [reflexivity|]. do 2 f_equal. lia.
  - inversion F as [|? ? (Ft & Fl & Fb) Fr]; subst. pose proof (zlen_nonneg (g_refs p)).
    destruct (pic_byte (g_tid p) (g_u p) (zlen (g_refs p)) Ft ltac:(lia)) as (E1 & E2 & E3).
    cbn [enc_pic app]. cbv zeta in *. rewrite E1, E2, E3. rewrite <- app_assoc.
    destruct (zlen (g_refs p ++ flat_map enc_pic g ++ r) * 8 <? zlen (g_refs p)) eqn:Q.
    { rewrite zlen_app in Q. pose proof (zlen_nonneg (flat_map enc_pic g ++ r)). lia. }
    set (s1 := set_pg s (d_pgtid s ++ [g_tid p]) _ _).
    set (s2 := set_pg s1 (d_pgtid s1) (d_pgu s1) (d_pgpdiff s1 ++ [[]])).
    assert (length (d_pgpdiff s2) = S (length (d_pgpdiff s))) as LP by (unfold s2, s1; cbn; rewrite app_length; cbn; lia).
    assert (length (d_pgtid s2) = S (length (d_pgtid s))) as LT by (unfold s2, s1; cbn; rewrite app_length; cbn; lia).
    assert (forall t u pd, set_pg s2 t u pd = set_pg s t u pd) as SS by reflexivity. 
    destruct (dec_pdiffs (g_refs p) i s2 (flat_map enc_pic g ++ r) (ix + 1) ltac:(lia)) as (pd & P1 & P2).
    replace (Z.to_nat (zlen (g_refs p))) with (length (g_refs p)) by (unfold zlen; lia). rewrite P1, SS.
    set (s3 := set_pg s (d_pgtid s2) (d_pgu s2) pd). 
    destruct (IH (S i) s3 r (ix + 1 + zlen (g_refs p)) Fr) as (t & u & pd2 & R1 & R2); [unfold s3; cbn [d_pgpdiff set_pg]; lia|].
    exists t, u, pd2. split; [|unfold s3 in R2; cbn [d_pgtid set_pg] in R2; lia]. rewrite R1. rewrite zlen_cons, zlen_app. apply f_equal2; [reflexivity|]. do 2 f_equal. lia.
Qed.
Lemma zlen_sizes l : zlen (flat_map enc_size l) = 4 * zlen l.
Proof. induction l as [|a l IH]; [reflexivity|]. cbn [flat_map]. rewrite zlen_app, IH, zlen_cons. change (zlen (enc_size a)) with 4. lia. Qed.
Lemma ss_byte n y g : 1 <= n <= 3 -> 0 <= y <= 1 -> 0 <= g <= 1 ->
  let b := (n - 1) * 32 + y * 16 + g * 8 in Z.shiftr b 5 = n - 1 /\ bit b 16 = (y =? 1) /\ negb (Z.land (Z.shiftr b 1) 7 =? 0) = (g =? 1).
Proof.
  intros N Y G. assert (n = 1 \/ n = 2 \/ n = 3) as [-> | [-> | ->]] by lia; assert (y = 0 \/ y = 1) as [-> | ->] by lia;
    assert (g = 0 \/ g = 1) as [-> | ->] by lia; repeat split; reflexivity.
Qed.
Lemma dec_ss s ss r ix : ss_ok ss -> ok9 s ->
  exists s', parse_ssdata s (enc_ss ss ++ r) ix = (s', Ok (r, ix + zlen (enc_ss ss))) /\ same s s' /\
    match ss_sizes ss with
    | Some l => forall j w h, nth_error l j = Some (w, h) -> nth_error (d_width s') j = Some (Some w) /\ nth_error (d_height s') j = Some (Some h)
    | None => d_width s' = d_width s /\ d_height s' = d_height s
    end /\ ok9 s'.
Proof.
  intros (N & Z1 & Z2) K. unfold parse_ssdata, enc_ss. cbn [app]. cbv zeta.
  destruct (ss_byte (ss_layers ss) (isS (ss_sizes ss)) (isS (ss_group ss)) N) as (E1 & E2 & E3); [destruct (ss_sizes ss); cbn; lia|destruct (ss_group ss); cbn; lia|].
  cbv zeta in E1, E2, E3. rewrite E1, E2, E3. cbn [d_ns d_y set_ss].
  replace (ss_layers ss - 1 + 1) with (ss_layers ss) by lia. destruct (3 <? ss_layers ss) eqn:Q; [lia|].
  rewrite <- app_assoc.
  set (s1 := set_ss s _ _ _ _). set (G := match ss_group ss with Some g => zlen g :: flat_map enc_pic g | None => [] end).
  set (S1 := match ss_sizes ss with Some l => flat_map enc_size l | None => [] end).
  assert (exists w h, (if isS (ss_sizes ss) =? 1 then
              if zlen (S1 ++ G ++ r) * 8 <? 4 * ss_layers ss then (s1, Err)
              else match parse_sizes (Z.to_nat (ss_layers ss)) 0 s1 (S1 ++ G ++ r) with
                   | (s, Ok r) => (s, Ok (r, ix + 1 + 4 * ss_layers ss)) | (s, Err) => (s, Err) | (s, Panic) => (s, Panic) end
            else (s1, Ok (S1 ++ G ++ r, ix + 1))) = (set_wh s1 w h, Ok (G ++ r, ix + 1 + zlen S1)) /\
     match ss_sizes ss with
     | Some l => forall j a b, nth_error l j = Some (a, b) -> nth_error w j = Some (Some a) /\ nth_error h j = Some (Some b)
     | None => w = d_width s /\ h = d_height s end /\ length w = 3%nat /\ length h = 3%nat) as (w & h & EW & PW & LW & LH).
  { unfold S1. destruct (ss_sizes ss) as [l|]; cbn [isS].
    - destruct Z1 as (L & FA). change (1 =? 1) with true. cbv iota.
      destruct (_ <? 4 * ss_layers ss) eqn:Q2. { rewrite zlen_app, zlen_sizes in Q2. pose proof (zlen_nonneg (G ++ r)). lia. }
      destruct (dec_sizes l 0 s1 (G ++ r) FA) as (w & h & P1 & P2 & P3 & _ & P5); [unfold zlen in L; lia|exact K|].
      exists w, h. replace (Z.to_nat (ss_layers ss)) with (length l) by (unfold zlen in L; lia). rewrite P1. split; [|auto].
      rewrite zlen_sizes, L. reflexivity.
    - exists (d_width s), (d_height s). split; [|split; [auto|split; apply K]]. change (0 =? 1) with false. cbv iota. cbn [app]. change (zlen (@nil Z)) with 0. rewrite Z.add_0_r. destruct s; reflexivity. }
  rewrite EW. cbn [d_g set_wh]. change (d_g s1) with (isS (ss_group ss) =? 1).
  set (s2 := set_wh s1 w h). assert (same s s2 /\ d_width s2 = w /\ d_height s2 = h) as (SA & W2 & H2) by (repeat split).
  unfold G. destruct (ss_group ss) as [g|]; cbn [isS].
  - change (1 =? 1) with true. cbv iota. cbn [app]. cbn [d_ng set_ng].
    destruct Z2 as (LG & FG). destruct (dec_group g 0 (set_ng s2 (zlen g)) r (ix + 1 + zlen S1 + 1) FG ltac:(lia)) as (t & u & pd & P1 & _).
    replace (Z.to_nat (zlen g)) with (length g) by (unfold zlen; lia). rewrite P1. eexists. split; [|split; [|split]].
    + rewrite zlen_cons, zlen_app, zlen_cons. do 3 f_equal. lia.
    + destruct SA as (A1 & A2 & A3 & A4 & A5). repeat split; assumption.
    + cbn [d_width d_height set_pg set_ng]. rewrite W2, H2. exact PW.
    + unfold ok9. cbn [d_pdiff d_width d_height set_pg set_ng]. rewrite W2, H2. split; [apply K|auto].
  - change (0 =? 1) with false. cbv iota. cbn [app]. change (d_ng s2) with 0. cbn [Z.to_nat parse_group]. eexists. split; [|split; [|split]].
    + rewrite zlen_cons, zlen_app. change (zlen (@nil Z)) with 0. do 3 f_equal. lia.
    + exact SA.
    + rewrite W2, H2. exact PW.
    + unfold ok9. rewrite W2, H2. split; [apply K|auto].
Qed.

Lemma first_byte i p l f b e v z : 0 <= i <= 1 -> 0 <= l <= 1 -> 0 <= v <= 1 ->
  flags_of (i * 128 + b2z p * 64 + l * 32 + b2z f * 16 + b2z b * 8 + b2z e * 4 + v * 2 + b2z z) = mkF9 (i =? 1) p (l =? 1) f b e (v =? 1) z.
Proof.
  intros I L V. assert (i = 0 \/ i = 1) as [-> | ->] by lia; assert (l = 0 \/ l = 1) as [-> | ->] by lia; assert (v = 0 \/ v = 1) as [-> | ->] by lia;
    destruct p, f, b, e, z; reflexivity.
Qed.
Lemma isS_range {A} (o : option A) : 0 <= isS o <= 1. Proof. destruct o; cbn; lia. Qed.

(** what must hold for a packet to be accepted: its layer was not closed by another one *)
Definition fits (d : desc9) (n : Z) (x : vp9x) : Prop :=
  match w_layer d with Some l => layer_end x (l_sid l) = None \/ layer_end x (l_sid l) = Some n | None => True end.

Lemma dec_all s d media out x : ok9 s -> desc_ok d -> extra_ok x -> fits d (zlen out) (extra x) ->
  exists s' x', vp9_depacketize s (enc9 d ++ media) out x = (s', Ok (out ++ media, x')) /\ ok9 s' /\
    length (x9_scheme x') = 3%nat /\ tells d (zlen out) (zlen media) (extra x) x'.
Proof.
  intros K (D1 & D2 & D3 & D4) XO FT. unfold vp9_depacketize, enc9. cbn [app]. cbv zeta.
  rewrite first_byte by apply isS_range. cbn [f_i f_p f_l f_f f_b f_e f_v f_z].
  set (fl := mkF9 _ _ _ _ _ _ _ _). set (s0 := set_fl s fl).
  assert (ok9 s0 /\ d_fl s0 = fl) as (K0 & F0) by (split; [exact K|reflexivity]). clearbody s0.
  rewrite <- !app_assoc. set (T1 := opt (enc_lay (w_flex d)) (w_layer d) ++ _).
  assert (exists s1, (if isS (w_pid d) =? 1 then parse_picture_id s0 (opt enc_pid (w_pid d) ++ T1) 1 else (s0, Ok (opt enc_pid (w_pid d) ++ T1, 1)))
    = (s1, Ok (T1, 1 + zlen (opt enc_pid (w_pid d)))) /\ ok9 s1 /\ d_fl s1 = fl /\ match w_pid d with Some v => d_pid s1 = snd v | None => True end)
    as (s1 & E1 & K1 & F1 & P1).
  { destruct (w_pid d) as [v|]; cbn [isS opt].
    - change (1 =? 1) with true. cbv iota. rewrite dec_pid by exact D1. eexists. split; [reflexivity|]. repeat split; try apply K0. cbn. exact F0.
    - exists s0. split; [reflexivity|]. auto. }
  set (I1 := 1 + zlen (opt enc_pid (w_pid d))) in *.
  unfold then9 at 1. rewrite E1. unfold T1. clear E1 T1. set (T2 := (if w_flex d && w_inter d then _ else _) ++ _).
  assert (exists s2, (if isS (w_layer d) =? 1 then parse_layer_info s1 (opt (enc_lay (w_flex d)) (w_layer d) ++ T2) I1 else (s1, Ok (opt (enc_lay (w_flex d)) (w_layer d) ++ T2, I1)))
    = (s2, Ok (T2, I1 + zlen (opt (enc_lay (w_flex d)) (w_layer d)))) /\ ok9 s2 /\ d_fl s2 = fl /\ d_pid s2 = d_pid s1 /\
    match w_layer d with Some l => d_sid s2 = l_sid l /\ d_tid s2 = l_tid l /\ (w_flex d = false -> d_tl0 s2 = l_tl0 l) | None => True end)
    as (s2 & E2 & K2 & F2 & P2 & L2).
  { destruct (w_layer d) as [l|]; cbn [isS opt].
    - change (1 =? 1) with true. cbv iota. rewrite dec_lay by (auto; rewrite F1; reflexivity). eexists. split; [reflexivity|].
      unfold put_lay. cbv zeta. destruct (w_flex d); repeat split; try apply K1; try assumption; congruence.
    - exists s1. rewrite Z.add_0_r. split; [reflexivity|]. auto. }
  set (I2 := I1 + _) in *. unfold then9 at 1. rewrite E2. unfold T2. clear E2 T2. set (T3 := opt enc_ss (w_ss d) ++ media).
  set (R := if w_flex d && w_inter d then enc_refs (w_refs d) else []) in *.
  assert (exists s3, (if w_flex d && w_inter d then parse_ref_indices 4 0 s2 (R ++ T3) I2 else (s2, Ok (R ++ T3, I2))) = (s3, Ok (T3, I2 + zlen R)) /\ ok9 s3 /\ same s2 s3)
    as (s3 & E3 & K3 & S3).
  { unfold R. destruct (w_flex d && w_inter d) eqn:FI.
    - destruct (D4 eq_refl) as (D5 & D6). destruct (dec_refs (w_refs d) 4 0 s2 T3 I2) as (pd & Q1 & Q2); auto; try lia.
      { intro EE. rewrite EE in D5. cbn in D5. lia. }
      exists (set_pdiff s2 pd). split; [exact Q1|]. split; [|repeat split]. unfold ok9 in *. cbn. rewrite Q2. split; [reflexivity|]. split; apply K2.
    - exists s2. change (zlen (@nil Z)) with 0. rewrite Z.add_0_r. split; [reflexivity|]. split; [exact K2|repeat split]. }
  set (I3 := I2 + _) in *. unfold then9 at 1. rewrite E3. unfold T3. clear E3 T3.
  assert (exists s4, (if isS (w_ss d) =? 1 then parse_ssdata s3 (opt enc_ss (w_ss d) ++ media) I3 else (s3, Ok (opt enc_ss (w_ss d) ++ media, I3)))
    = (s4, Ok (media, I3 + zlen (opt enc_ss (w_ss d)))) /\ same s3 s4 /\
    match w_ss d with
    | Some ss => match ss_sizes ss with
               | Some l => forall j w h, nth_error l j = Some (w, h) -> nth_error (d_width s4) j = Some (Some w) /\ nth_error (d_height s4) j = Some (Some h)
               | None => True end
    | None => True end /\ ok9 s4) as (s4 & E4 & S4 & W4 & K4).
  { destruct (w_ss d) as [ss|] eqn:SE; cbn [isS opt].
    - change (1 =? 1) with true. cbv iota. destruct (dec_ss s3 ss media I3 D3 K3) as (s4 & Q1 & Q2 & Q3 & Q4). exists s4. split; [exact Q1|]. split; [exact Q2|].
      split; [destruct (ss_sizes ss); auto|exact Q4].
    - exists s3. rewrite Z.add_0_r. split; [reflexivity|]. split; [repeat split|]. auto. }
  unfold then9 at 1. rewrite E4. clear E4. set (I4 := I3 + _) in *.
  set (HD := opt enc_pid (w_pid d) ++ opt (enc_lay (w_flex d)) (w_layer d) ++ R ++ opt enc_ss (w_ss d)).
  set (h0 := _ + b2z (w_noref d)) in *.
  assert (I4 = 1 + zlen HD) as EI. { unfold I4, I3, I2, I1, HD. rewrite !zlen_app. lia. }
  match goal with |- context [skipn _ ?P] => assert (P = (h0 :: HD) ++ media) as PK by (unfold HD; cbn [app]; rewrite <- !app_assoc; reflexivity) end.
  rewrite PK. clear PK. assert (zlen ((h0 :: HD) ++ media) = I4 + zlen media) as PL by (rewrite zlen_app, zlen_cons; lia). rewrite PL.
  assert (skipn (Z.to_nat I4) ((h0 :: HD) ++ media) = media) as SK.
  { replace (Z.to_nat I4) with (length (h0 :: HD)) by (cbn [length]; unfold zlen in EI; lia). rewrite skipn_app, skipn_all, Nat.sub_diag. reflexivity. }
  rewrite SK. clear SK PL. clearbody HD h0. pose proof (zlen_nonneg media). pose proof (zlen_nonneg out). pose proof (zlen_nonneg HD).
  assert (I4 + zlen media <? I4 = false) as NL by lia.
  destruct S3 as (A1 & A2 & A3 & A4 & A5), S4 as (B1 & B2 & B3 & B4 & B5).
  assert (d_fl s4 = fl) as F4 by congruence.
  exists s4. unfold update_extra. rewrite F4. unfold fl at 1 3. cbn [f_l f_f f_p f_b]. fold (extra x).
  assert (length (x9_scheme (extra x)) = 3%nat) as XL by (destruct x; [exact XO|reflexivity]).
  unfold tells, fits in *. destruct (w_layer d) as [l|] eqn:LE; cbn [isS].
  - destruct L2 as (L21 & L22 & L23). change (1 =? 1) with true. cbv iota.
    assert (d_sid s4 = l_sid l) as SD by congruence. rewrite SD.
    destruct (zlen out + (I4 + zlen media) <? I4) eqn:Q; [lia|].
    destruct D2 as (_ & D2 & _).
    destruct (upd_some (fun _ => Some (zlen out + (I4 + zlen media) - I4)) (x9_scheme (extra x)) (Z.to_nat (l_sid l))) as (sc & E & L & NS). { rewrite XL. lia. }
    unfold layer_end in FT.
    destruct (nth_error (x9_scheme (extra x)) (Z.to_nat (l_sid l))) as [o|] eqn:NE. 2:{ apply nth_error_None in NE. lia. }
    assert (match o with Some stop => negb (stop =? zlen out) | None => false end = false) as -> by (destruct FT as [-> | ->]; [reflexivity|rewrite Z.eqb_refl; reflexivity]).
    rewrite E. cbn [bind]. rewrite NL. eexists. split; [reflexivity|]. split; [exact K4|]. cbn [x9_scheme x9_tid x9_tl0 x9_pid x9_key x9_widths x9_heights].
    split; [congruence|]. split; [|split; [|split]].
    + split; [|split].
      * intros j J. unfold layer_end. cbn [x9_scheme]. rewrite NS.
        destruct (j =? l_sid l) eqn:JE.
        -- assert (j = l_sid l) as -> by lia. rewrite Nat.eqb_refl, NE. cbn [option_map]. f_equal. lia.
        -- destruct (Nat.eqb_spec (Z.to_nat j) (Z.to_nat (l_sid l))); [lia|reflexivity].
      * congruence.
      * destruct (w_flex d); [reflexivity|]. rewrite B5, A5, L23; reflexivity.
    + destruct (w_pid d); [congruence|exact I].
    + exact W4.
    + unfold fl. cbn [f_p f_b]. rewrite Bool.orb_false_r. f_equal. destruct (negb (w_inter d)), (w_begin d), (l_sid l =? 0); reflexivity.
  - change (0 =? 1) with false. cbv iota. cbn [bind]. rewrite NL. eexists. split; [reflexivity|]. split; [exact K4|].
    cbn [x9_scheme x9_tid x9_tl0 x9_pid x9_key x9_widths x9_heights].
    split; [exact XL|]. split; [|split; [|split]].
    + repeat split.
    + destruct (w_pid d); [congruence|exact I].
    + exact W4.
    + unfold fl. cbn [f_p f_b negb]. rewrite Bool.orb_true_r. f_equal. destruct (negb (w_inter d)), (w_begin d); reflexivity.
Qed.

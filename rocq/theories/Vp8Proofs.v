From Verif Require Import Base BaseFacts Brute SeqModel SeqProps BufRxSpec Vp8Model Vp8Spec.

(** * Fragments *)
Lemma frags_spec max : 1 <= max -> forall fuel l first, (length l <= fuel)%nat ->
  let fs := frags_ fuel max first l in
  concat (map snd fs) = l /\ Forall (fun f => 1 <= zlen (snd f) <= max) fs /\
  (l <> [] -> exists b d r, fs = (first, b, d) :: r /\ Forall (fun f => fst (fst f) = false) r) /\
  (forall a f b, fs = a ++ f :: b -> snd (fst f) = true <-> b = []).
Proof.
  intro M. induction fuel as [|fuel IH]; intros l first L.
  - destruct l; [|cbn in L; lia]. cbn. repeat split; auto; try congruence; destruct a; discriminate.
  - cbn [frags_]. destruct (zlen l <=? 0) eqn:Q.
    + pose proof (zlen_nonneg l). assert (l = []) as -> by (apply zlen_0; lia).
      cbn. repeat split; auto; try congruence; destruct a; discriminate.
    + set (n := Z.min max (zlen l)). assert (1 <= n <= max /\ n <= zlen l) as [N1 N2] by lia.
      specialize (IH (skipn (Z.to_nat n) l) false). rewrite skipn_length in IH. 
      assert (length l - Z.to_nat n <= fuel)%nat as LF by (unfold zlen in *; lia). specialize (IH LF). cbv zeta in IH |- *.
      destruct IH as (I1 & I2 & I3 & I4). split; [|split; [|split]].
      * cbn [map snd concat]. rewrite I1. apply firstn_skipn.
      * constructor; [|exact I2]. cbn [snd]. rewrite zlen_firstn. lia.
      * intros _. eexists _, _, _. split; [reflexivity|].
        destruct (skipn (Z.to_nat n) l) as [|z k] eqn:E.
        -- destruct fuel; [constructor|]. cbn. constructor.
        -- destruct (I3 ltac:(discriminate)) as (b & d & r & E1 & E2). rewrite E1. constructor; [reflexivity|exact E2].
      * intros a f b E. destruct a as [|x a]; cbn [app] in E; [|injection E as _ E; apply (I4 _ _ _ E)].
        injection E as <- <-. cbn [fst snd].
        assert (zlen l = n <-> skipn (Z.to_nat n) l = []) as HH.
        { split; intro H.
          - apply zlen_0. rewrite zlen_skipn. lia.
          - assert (zlen (skipn (Z.to_nat n) l) = 0) as HZ by (rewrite H; reflexivity). rewrite zlen_skipn in HZ. lia. }
        split; intro H.
        -- assert (skipn (Z.to_nat n) l = []) as -> by (apply HH; lia). destruct fuel; reflexivity.
        -- rewrite H in I1. cbn in I1. symmetry in I1. apply HH in I1. lia.
Qed.
Lemma frags_ok max l : 1 <= max -> l <> [] ->
  concat (map snd (frags max l)) = l /\ Forall (fun f => 1 <= zlen (snd f) <= max) (frags max l) /\
  (exists b d r, frags max l = (true, b, d) :: r /\ Forall (fun f => fst (fst f) = false) r) /\
  (forall a f b, frags max l = a ++ f :: b -> snd (fst f) = true <-> b = []).
Proof.
  intros M NE. destruct (frags_spec max M (length l) l true (Nat.le_refl _)) as (A & B & C & D).
  split; [exact A|]. split; [exact B|]. split; [apply C; exact NE|exact D].
Qed.

(** * VP8 round trip *)
Definition pid_after (p : vp8p) (s : vp8d) : option Z :=
  if enable_picture_id p then Some (extend (pw p) (ext_pid s) (picture_id p)) else ext_pid s.

Lemma bit7 v : 0 <= v < 128 -> Z.land v 127 = v /\ bit v 128 = false.
Proof.
  intro H. pose proof (brute 128 (fun v => (Z.land v 127 =? v) && negb (bit v 128)) ltac:(vm_compute; reflexivity) v H) as Q.
  cbn beta in Q. destruct (bit v 128); cbn in Q; lia.
Qed.
Lemma bit15 v : 0 <= v < 32768 -> bit (Z.lor 128 (Z.land (Z.shiftr v 8) 127)) 128 = true /\
  Z.lor (Z.shiftl (Z.land (Z.lor 128 (Z.land (Z.shiftr v 8) 127)) 127) 8) (Z.land v 255) = v /\ byte_ok (Z.lor 128 (Z.land (Z.shiftr v 8) 127)).
Proof.
  intro H. pose proof (brute 32768 (fun v => bit (Z.lor 128 (Z.land (Z.shiftr v 8) 127)) 128 &&
    (Z.lor (Z.shiftl (Z.land (Z.lor 128 (Z.land (Z.shiftr v 8) 127)) 127) 8) (Z.land v 255) =? v) &&
    byteb (Z.lor 128 (Z.land (Z.shiftr v 8) 127))) ltac:(vm_compute; reflexivity) v H) as Q.
  cbn beta in Q. unfold byteb, byte_ok in *. lia.
Qed.

Lemma header_zlen p first : zlen (vp8_header p first) = header_size p.
Proof. unfold vp8_header, header_size. destruct (enable_picture_id p); [destruct (picture_id p <? 128)|]; reflexivity. Qed.

Definition key_of (first : bool) (d : list Z) : bool := match d with h :: _ => first && (Z.land h 1 =? 0) | [] => false end.

Lemma vp8_step p first d s out x : 0 <= picture_id p < 32768 -> d <> [] ->
  vp8_depacketize s (vp8_header p first ++ d) out x =
  (mkD (pid_after p s) (ext_tl0 s) (tid s) (y s),
   Some (out ++ d, mkX false (y s =? 1) (tid s) (if enable_picture_id p then pid_after p s else None) None
      (match x with Some e => x_key e || key_of first d | None => key_of first d end))).
Proof.
  intros R NE. destruct d as [|h d]; [congruence|]. unfold vp8_header, pid_after, pw, key_of.
  destruct s as [ep et ti yy]. cbn [ext_pid ext_tl0 tid y].
  destruct (enable_picture_id p); [destruct (picture_id p <? 128) eqn:Q|].
  - destruct (bit7 (picture_id p) ltac:(lia)) as [B1 B2]. rewrite B1.
    destruct first; cbn -[extend_u7 extend Z.lor]; change (Z.lor 16 128) with 144; change (Z.lor 0 128) with 128; cbn -[extend_u7 extend bit Z.land];
    change (bit 144 128) with true; change (bit 128 128) with true; change (bit 128 64) with false; cbn [andb negb]; rewrite B2; reflexivity.
  - destruct (bit15 (picture_id p) R) as (B1 & B2 & _). set (hi := Z.lor 128 (Z.land (Z.shiftr (picture_id p) 8) 127)) in *. clearbody hi.
    destruct first; cbn -[extend_u15 extend Z.lor Z.shiftl Z.land]; change (Z.lor 16 128) with 144; change (Z.lor 0 128) with 128; cbn -[extend_u15 extend bit Z.land Z.lor Z.shiftl];
    change (bit 144 128) with true; change (bit 128 128) with true; change (bit 128 64) with false; cbn [andb negb]; rewrite B1, B2; reflexivity.
  - destruct first; reflexivity.
Qed.

Lemma ext_props w o v : width w -> (match o with Some e => 0 <= e < 2 ^ 64 | None => True end) -> 0 <= v < 2 ^ w ->
  let e := extend w o v in 0 <= e < 2 ^ 64 /\ e mod 2 ^ w = v /\ extend w (Some e) v = e.
Proof.
  intros W O V. assert (0 < 2 ^ w <= 2 ^ 32) as WP by (unfold width in W; destruct W as [-> |[-> |[-> |[-> | ->]]]]; cbn; lia).
  assert (0 <= extend w o v < 2 ^ 64 /\ extend w o v mod 2 ^ w = v) as [A B].
  { destruct o as [e|].
    - destruct (C01_extend_congruent_nearest w e v W O) as (A & B & _). rewrite (Z.mod_small v) in B by lia. auto.
    - rewrite C01_extend_first by exact W. rewrite Z.mod_small by lia. split; [|apply Z.mod_small; lia].
      change (2 ^ 32) with 4294967296 in WP. change (2 ^ 64) with 18446744073709551616. lia. }
  cbv zeta. split; [exact A|]. split; [exact B|].
  rewrite <- B at 2. apply C01_extend_recovers; auto. rewrite Z.sub_diag. cbn [Z.abs]. apply Z.div_str_pos.
  unfold width in W; destruct W as [-> |[-> |[-> |[-> | ->]]]]; cbn; lia.
Qed.
Lemma pw_ok p : 0 <= picture_id p < 32768 -> width (pw p) /\ 0 <= picture_id p < 2 ^ pw p.
Proof. intro H. unfold pw, width. destruct (picture_id p <? 128) eqn:Q; cbn; lia. Qed.

Lemma vp8_rest p : 0 <= picture_id p < 32768 -> forall (fs : list (bool * bool * list Z)) s out x, Forall (fun f => 1 <= zlen (snd f)) fs ->
  Forall (fun f => fst (fst f) = false) fs -> pid_after p s = ext_pid s -> x_pid x = (if enable_picture_id p then ext_pid s else None) ->
  exists x', feed vp8_dep s (map (fun '(first, _, d) => vp8_header p first ++ d) fs) out (Some x) = (s, Some (out ++ concat (map snd fs), Some x')) /\
    x_key x' = x_key x /\ x_pid x' = x_pid x.
Proof.
  intros R. induction fs as [|[[first b] d] fs IH]; intros s out x F1 F2 PA XP.
  - exists x. cbn. rewrite app_nil_r. auto.
  - inversion F1 as [|? ? A1 A2]; subst. inversion F2 as [|? ? B1 B2]; subst. cbn [fst snd] in *. subst first.
    cbn [map feed concat snd]. unfold vp8_dep at 1. rewrite vp8_step; [|exact R|intro E; subst d; cbn in A1; lia].
    rewrite PA. replace (mkD (ext_pid s) (ext_tl0 s) (tid s) (y s)) with s by (destruct s; reflexivity).
    assert (key_of false d = false) as -> by (destruct d; reflexivity). rewrite orb_false_r.
    edestruct (IH s (out ++ d)) as (x' & E & K & PX); [exact A2|exact B2|exact PA| |].
    2: { exists x'. rewrite E. rewrite <- app_assoc. split; [reflexivity|]. cbn [x_key x_pid] in K, PX. split; [exact K|]. rewrite PX, XP. reflexivity. }
    cbn [x_pid]. reflexivity.
Qed.

Lemma vp8_round p mtu payload s p' pkts : 0 <= picture_id p < 32768 -> d_ok s -> payload <> [] -> header_size p < mtu ->
  vp8_packetize p mtu payload = (p', pkts) ->
  fit mtu pkts /\ one_head vp8_head pkts /\
  exists s' x, feed vp8_dep s pkts [] None = (s', Some (payload, Some x)) /\ d_ok s' /\
    (x_key x = true <-> exists h r, payload = h :: r /\ Z.land h 1 = 0) /\
    (if enable_picture_id p then exists e, x_pid x = Some e /\ ext_pid s' = Some e /\ 0 <= e < 2 ^ 64 /\ e mod 2 ^ pw p = picture_id p
     else x_pid x = None).
Proof.
  intros R OK NE HM E. unfold vp8_packetize in E.
  assert (0 < zlen payload) as LP. { pose proof (zlen_nonneg payload). destruct payload; [congruence|]. rewrite zlen_cons in *. pose proof (zlen_nonneg payload). lia. }
  assert (1 <= header_size p) as H1 by (unfold header_size; destruct (enable_picture_id p); [destruct (_ <? _)|]; lia).
  destruct ((zlen payload =? 0) || (mtu =? 0)) eqn:Q1; [lia|]. destruct (Z.min (mtu - header_size p) (zlen payload) <=? 0) eqn:Q2; [lia|].
  injection E as <- <-. destruct (frags_ok (mtu - header_size p) payload ltac:(lia) NE) as (F1 & F2 & (b & d & r & F3 & F4) & F5).
  set (fs := frags (mtu - header_size p) payload) in *.
  split; [|split].
  - split; [rewrite F3; discriminate|]. apply Forall_forall. intros q Hq. apply in_map_iff in Hq as ([[f bb] dd] & <- & Hf).
    rewrite Forall_forall in F2. specialize (F2 _ Hf). cbn [snd] in F2. rewrite zlen_app, header_zlen. lia.
  - rewrite F3. cbn [map]. eexists _, _. split; [reflexivity|]. split.
    + unfold vp8_header. destruct (enable_picture_id p); [destruct (picture_id p <? 128)|]; reflexivity.
    + apply Forall_forall. intros q Hq. apply in_map_iff in Hq as ([[f bb] dd] & <- & Hf).
      rewrite Forall_forall in F4. specialize (F4 _ Hf). cbn in F4. subst f.
      unfold vp8_header. destruct (enable_picture_id p); [destruct (picture_id p <? 128)|]; reflexivity.
  - rewrite F3. rewrite F3 in F1, F2. cbn [map feed]. cbn [map concat snd] in F1. pose proof (Forall_inv F2) as A1. pose proof (Forall_inv_tail F2) as A2. cbn [snd] in A1.
    unfold vp8_dep at 1. rewrite vp8_step; [|exact R|intro Ed; subst d; cbn in A1; lia].
    destruct (pw_ok p R) as [W V]. destruct (ext_props (pw p) (ext_pid s) (picture_id p) W OK V) as (P1 & P2 & P3).
    set (s1 := mkD (pid_after p s) (ext_tl0 s) (tid s) (y s)).
    assert (pid_after p s1 = ext_pid s1) as PF.
    { subst s1. unfold pid_after. cbn [ext_pid]. destruct (enable_picture_id p); [|reflexivity]. rewrite P3. reflexivity. }
    edestruct (vp8_rest p R r s1 ([] ++ d)) as (x' & EX & K & PX); [| |exact PF| |].
    4: { exists s1, x'. rewrite EX. cbn [app]. rewrite F1. split; [reflexivity|]. split.
         - unfold d_ok. subst s1. cbn [ext_pid]. unfold pid_after. destruct (enable_picture_id p); [exact P1|exact OK].
         - split.
           + rewrite K. cbn [x_key]. destruct d as [|h d]; [cbn in A1; lia|]. cbn [key_of]. rewrite <- F1. cbn [app]. split.
             * intro HK. exists h. eexists. split; [reflexivity|]. lia.
             * intros (h' & r' & EE & HK). injection EE as <- _. lia.
           + rewrite PX. cbn [x_pid]. subst s1. cbn [ext_pid]. unfold pid_after. destruct (enable_picture_id p); [|reflexivity].
             eexists. split; [reflexivity|]. split; [reflexivity|]. split; [exact P1|exact P2]. }
    + eapply Forall_impl; [|exact A2]. cbn. intros; lia.
    + exact F4.
    + cbn [x_pid]. subst s1. cbn [ext_pid]. reflexivity.
Qed.

(** * Plain codecs *)
Lemma plain_feed : forall ps out, feed plain_dep tt ps out tt = (tt, Some (out ++ concat ps, tt)).
Proof.
  induction ps as [|p ps IH]; intro out; cbn [feed concat]; [rewrite app_nil_r; reflexivity|].
  unfold plain_dep at 1, plain_depacketize. rewrite IH, app_assoc. reflexivity.
Qed.
Lemma plain_round mtu payload : payload <> [] -> 1 <= mtu ->
  fit mtu (plain_packetize mtu payload) /\ feed plain_dep tt (plain_packetize mtu payload) [] tt = (tt, Some (payload, tt)).
Proof.
  intros NE M. unfold plain_packetize. pose proof (zlen_nonneg payload).
  destruct ((zlen payload =? 0) || (mtu =? 0)) eqn:Q. { destruct payload; [congruence|]. rewrite zlen_cons in *. pose proof (zlen_nonneg payload). lia. }
  destruct (frags_ok mtu payload M NE) as (F1 & F2 & (b & d & r & F3 & F4) & F5). split.
  - split; [rewrite F3; discriminate|]. apply Forall_forall. intros q Hq. apply in_map_iff in Hq as (f & <- & Hf).
    rewrite Forall_forall in F2. specialize (F2 _ Hf). lia.
  - rewrite plain_feed, F1. reflexivity.
Qed.

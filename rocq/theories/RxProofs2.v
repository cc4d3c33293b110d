(** One packet: totality, and the cases of its handling. *)
From Verif Require Import Base BaseFacts SeqModel SeqProofs NackModel RegisterModel MtimeModel ExtModel HeaderModel HeaderProofs TxModel RxModel RxReg RxProofs.

Lemma aset_aset {A} k (a b : A) l : aset k b (aset k a l) = aset k b l.
Proof.
  induction l as [|[k0 a0] r IH]; cbn [aset]; [rewrite Z.eqb_refl; reflexivity|]. destruct (k0 =? k) eqn:E; cbn [aset].
  - rewrite Z.eqb_refl. reflexivity.
  - rewrite E, IH. reflexivity.
Qed.

(** ** Sequence numbers *)
Lemma extend16_none q : extend_u16 None q = q mod U16.
Proof. unfold extend_u16. rewrite extend_none by (unfold width; lia). reflexivity. Qed.
Lemma extend16_range o q : (forall e, o = Some e -> 0 <= e < U64) -> 0 <= extend_u16 o q < U64 /\ extend_u16 o q mod U16 = q mod U16.
Proof.
  intro H. destruct o as [e|].
  - pose proof (extend_spec 16 e q ltac:(unfold width; lia) (H e eq_refl)) as X. unfold extend_u16. cbv zeta in X. intuition.
  - rewrite extend16_none. unfold U16, U64. split; [|apply Z.mod_mod; lia]. pose proof (Z.mod_pos_bound q 65536). lia.
Qed.
Lemma roc_seq roc sn : 0 <= sn < U16 -> 0 <= Z.lor (Z.shiftl roc 16 mod U64) sn < U64 /\ Z.lor (Z.shiftl roc 16 mod U64) sn mod U16 = sn.
Proof.
  intro H. rewrite Z.shiftl_mul_pow2 by lia. change (2 ^ 16) with U16.
  assert (exists v, 0 <= v < 281474976710656 /\ roc * U16 mod U64 = v * U16) as (v & V & ->).
  { exists (roc mod 281474976710656). split; [apply Z.mod_pos_bound; reflexivity|]. change U64 with (281474976710656 * U16). apply Z.mul_mod_distr_r; unfold U16; lia. }
  rewrite (lor_add (v * U16) sn 16); [|lia|exact H|apply Z.mod_mul; unfold U16; lia].
  unfold U16, U64 in *. split; [lia|]. rewrite Z.add_comm, Z.mod_add by lia. apply Z.mod_small. exact H.
Qed.

(** ** One stream *)
Definition reg_of (rep : bool) (s : srx) : option rreg := if rep then s_regx s else s_reg s.
Lemma max_bound o e : oreg_ok o -> (match o with Some r => rmax_seq r | None => None end) = Some e -> 0 <= e < U64.
Proof. destruct o as [r|]; [|discriminate]. intros [[G F] B] E. split; [eapply rg_max_nonneg; eassumption|]. apply B. exact E. Qed.
Lemma oreg_new o : (forall q, o = Some q -> 0 <= q < U64) -> oreg_ok (Some (rnew o)).
Proof.
  intro H. split; [apply rr_new; intros q E; apply H in E; lia|]. intros e E. unfold rmax_seq, rnew in E. cbn [rnack] in E. destruct o as [q|]; [|discriminate E].
  unfold new_reg, init_with_seq, max_seq in E. cbn [active] in E. inversion E; subst. apply H. reflexivity.
Qed.
Lemma rnew_max o : rmax_seq (rnew o) = o.
Proof. destruct o; reflexivity. Qed.
Definition opt_reg (o : option rreg) (d : rreg) : rreg := match o with Some r => r | None => d end.
Lemma extend_seq_ok k s h rep L s1 seq : SRI k s -> (forall q, L (ssrc h) = Some q -> 0 <= q < U64) -> 0 <= sequence_number h < U16 ->
  extend_seq s h rep L = (s1, seq) ->
  let r := opt_reg (reg_of rep s) (rnew (L (ssrc h))) in
  SRI k s1 /\ 0 <= seq < U64 /\ seq mod U16 = sequence_number h /\
  s1 = (if rep then set_regs s (s_roc s) (s_reg s) (Some r) else set_regs s None (Some r) (s_regx s)) /\
  (rep = true \/ s_roc s = None -> seq = extend_u16 (rmax_seq r) (sequence_number h)) /\
  (rep = false -> forall roc, s_roc s = Some roc -> seq = Z.lor (Z.shiftl roc 16 mod U64) (sequence_number h)).
Proof.
  intros I HL HS E r. assert (oreg_ok (Some r)) as RO.
  { unfold r, opt_reg, reg_of. destruct I. destruct rep; [destruct (s_regx s); [assumption|]|destruct (s_reg s); [assumption|]]; apply oreg_new; exact HL. }
  assert (0 <= extend_u16 (rmax_seq r) (sequence_number h) < U64 /\ extend_u16 (rmax_seq r) (sequence_number h) mod U16 = sequence_number h) as [X1 X2].
  { destruct (extend16_range (rmax_seq r) (sequence_number h)) as [Y1 Y2]; [intros e Ee; apply (max_bound (Some r) e RO Ee)|].
    split; [exact Y1|]. rewrite Y2. apply Z.mod_small. exact HS. }
  unfold extend_seq in E. destruct I as [K A B C]. unfold r, reg_of, opt_reg in *. destruct rep.
  - inversion E; subst; clear E. split; [constructor; cbn; auto|]. split; [exact X1|]. split; [exact X2|]. split; [reflexivity|]. split; [auto|discriminate].
  - destruct (s_roc s) as [roc|] eqn:ER.
    + inversion E; subst; clear E. destruct (roc_seq roc _ HS) as [Y1 Y2].
      split; [constructor; cbn; auto; discriminate|]. split; [exact Y1|]. split; [exact Y2|]. split; [reflexivity|]. split; [intros [Z|Z]; discriminate|]. intros _ roc' Q. inversion Q. reflexivity.
    + inversion E; subst; clear E. split; [constructor; cbn; auto; discriminate|]. split; [exact X1|]. split; [exact X2|]. split; [reflexivity|]. split; [auto|]. discriminate.
Qed.
Lemma update_register_ok k s now h rate rep seq r : SRI k s -> 0 <= seq < U64 -> reg_of rep s = Some r ->
  exists s2 t, update_register s now h rate rep seq = Ok (s2, t, raccepts r seq) /\ SRI k s2 /\ s_mid s2 = s_mid s /\ s_rid s2 = s_rid s /\
    s_rtx s2 = s_rtx s /\ s_roc s2 = s_roc s /\
    reg_of rep s2 = Some (fst (rupdate r seq)) /\ reg_of (negb rep) s2 = reg_of (negb rep) s.
Proof.
  intros I HS ER. unfold update_register, reg_of in *. rewrite ER. pose proof (rupdate_snd r seq) as SN. destruct (rupdate r seq) as [r' nw] eqn:EU. cbn [snd] in SN. subst nw.
  destruct I as [K A B C]. do 2 eexists. split; [reflexivity|].
  assert (oreg_ok (Some r')) as RO.
  { assert (oreg_ok (Some r)) as [R0 B0] by (destruct rep; rewrite ER in *; assumption).
    replace r' with (fst (rupdate r seq)) by (rewrite EU; reflexivity). split; [apply rr_update; [lia|exact R0]|].
    unfold rmax_seq. rewrite rupdate_nack, upd_max by apply R0. intros e E. inversion E. fold (rmax_seq r). destruct (rmax_seq r) as [e0|]; [|lia]. specialize (B0 e0 eq_refl). lia. }
  destruct rep; cbn; (split; [constructor; cbn; auto|]); auto 10.
Qed.
Lemma srx_rtp_ok k s now h pay seq t : SRI k s ->
  let z := srx_rtp s now h pay seq t in
  SRI k (fst z) /\ s_mid (fst z) = s_mid s /\ s_rid (fst z) = s_rid s /\ s_rtx (fst z) = s_rtx s /\ s_roc (fst z) = s_roc s /\
  s_reg (fst z) = s_reg s /\ s_regx (fst z) = s_regx s /\
  q_seq (snd z) = seq /\ q_hdr (snd z) = h /\ q_pay (snd z) = pay /\ q_at (snd z) = now /\ q_time (snd z) = t.
Proof.
  intros [K A B C] z. unfold z, srx_rtp. destruct (match s_clock s with Some (pt, _) => pt =? payload_type h | None => false end); cbn; (split; [constructor; cbn; auto|]); auto 12.
Qed.

(** ** The cases of [handle_rtp] *)
Definition put (k : Z) (s : srx) (x : sess) : sess := set_streams x (aset k s (streams x)) (lookups x).
Definition params_of (x : sess) (k pt : Z) : option param :=
  if k =? 0 then match probe x with Some p => Some (mkPar p None 90000) | None => None end else find_param (codecs x) pt.
Definition tw_of (h : header) : list rxev := match transport_cc (ext_vals h) with Some n => [EvTwcc n] | None => [] end.

(** the packet that counts for the stream: the packet itself, or what its RTX payload holds *)
Inductive inner (now rate pt : Z) (s2 : srx) (h : header) (seq : Z) (t : mtime) (new : bool) (data : list Z) (mx : list (Z * Z)) :
    bool -> srx -> header -> Z -> mtime -> bool -> list Z -> list (Z * Z) -> Prop :=
| in_main : inner now rate pt s2 h seq t new data mx false s2 h seq t new data mx
| in_rtx h' data' s3 seq' s4 t4 new4 : data <> [] -> un_rtx s2 h data pt = (h', data') ->
    extend_seq s2 h' false (seq_lookup mx) = (s3, seq') ->
    update_register s3 now h' rate false seq' = Ok (s4, t4, new4) ->
    inner now rate pt s2 h seq t new data mx true s4 h' seq' t4 new4 data' (update_max_seq mx (ssrc h') seq').

Inductive rxcase (x : sess) (now : Z) (h : header) (dec : Z -> option (list Z)) (m : list Z) (k : Z) : sess -> list rxev -> Prop :=
| rc_skip : srtp x = false \/ params_of x k (payload_type h) = None -> rxcase x now h dec m k x []
| rc_reject s p s1 seq rep : srtp x = true -> aget k (streams x) = Some s -> params_of x k (payload_type h) = Some p -> rep = negb (p_pt p =? payload_type h) ->
    extend_seq s h rep (seq_lookup (maxseq x)) = (s1, seq) ->
    (is_new_packet s1 rep seq = Ok false \/ dec seq = None \/ exists raw, dec seq = Some raw /\ unpad h raw = Err) ->
    rxcase x now h dec m k (put k s1 x) []
| rc_pad s p s1 seq rep raw s2 t2 new2 : srtp x = true -> aget k (streams x) = Some s -> params_of x k (payload_type h) = Some p -> rep = negb (p_pt p =? payload_type h) ->
    extend_seq s h rep (seq_lookup (maxseq x)) = (s1, seq) -> is_new_packet s1 rep seq = Ok true -> dec seq = Some raw -> unpad h raw = Ok [] -> rep = true ->
    update_register s1 now h (p_clock p) rep seq = Ok (s2, t2, new2) ->
    rxcase x now h dec m k (set_maxseq (put k s2 x) (update_max_seq (maxseq x) (ssrc h) seq)) (tw_of h)
| rc_probe s p s1 seq rep raw data s2 t2 new2 s3 h3 seq3 t3 new3 data3 mx3 : srtp x = true -> aget k (streams x) = Some s -> params_of x k (payload_type h) = Some p -> rep = negb (p_pt p =? payload_type h) ->
    extend_seq s h rep (seq_lookup (maxseq x)) = (s1, seq) -> is_new_packet s1 rep seq = Ok true -> dec seq = Some raw -> unpad h raw = Ok data ->
    update_register s1 now h (p_clock p) rep seq = Ok (s2, t2, new2) ->
    inner now (p_clock p) (p_pt p) s2 h seq t2 new2 data (update_max_seq (maxseq x) (ssrc h) seq) rep s3 h3 seq3 t3 new3 data3 mx3 ->
    k = 0 -> rxcase x now h dec m k (set_maxseq (put k s3 x) mx3) (tw_of h)
| rc_packet s p s1 seq rep raw data s2 t2 new2 s3 h3 seq3 t3 new3 data3 mx3 s4 pk : srtp x = true -> aget k (streams x) = Some s -> params_of x k (payload_type h) = Some p -> rep = negb (p_pt p =? payload_type h) ->
    extend_seq s h rep (seq_lookup (maxseq x)) = (s1, seq) -> is_new_packet s1 rep seq = Ok true -> dec seq = Some raw -> unpad h raw = Ok data ->
    update_register s1 now h (p_clock p) rep seq = Ok (s2, t2, new2) ->
    inner now (p_clock p) (p_pt p) s2 h seq t2 new2 data (update_max_seq (maxseq x) (ssrc h) seq) rep s3 h3 seq3 t3 new3 data3 mx3 ->
    k <> 0 -> srx_rtp s3 now h3 data3 seq3 t3 = (s4, pk) ->
    rxcase x now h dec m k
      (set_pending (set_maxseq (put k s4 x) mx3) (bytes_rx x + zlen data3)
         (if rtp_mode x then if new3 then Some pk else pending x else pending x))
      (tw_of h ++ if rtp_mode x then [] else [EvDepay m (s_rid s4) pk]).

Lemma un_rtx_fields s h data pt h' data' : un_rtx s h data pt = (h', data') ->
  ssrc h' = s_ssrc s /\ (bytes_ok data -> 0 <= sequence_number h' < U16) /\ payload_type h' = pt /\ timestamp h' = timestamp h /\ marker h' = marker h /\
  (bytes_ok data -> (exists a b, data = a :: b :: data' /\ sequence_number h' = rd16 a b) \/ (zlen data < 2 /\ data' = data /\ sequence_number h' = 0)).
Proof.
  unfold un_rtx, read_osn. destruct data as [|a [|b l]]; intro E; inversion E; subst; clear E; cbn [ssrc sequence_number payload_type timestamp marker].
  - repeat (split; [auto; try (unfold U16; lia)|]). intros _. right. split; [cbn; lia|auto].
  - split; [reflexivity|]. split; [unfold U16; lia|]. split; [reflexivity|]. split; [reflexivity|]. split; [reflexivity|]. intros _. right. split; [cbn; lia|]. auto.
  - split; [reflexivity|]. split; [|split; [reflexivity|split; [reflexivity|split; [reflexivity|]]]].
    + intro B. inversion B as [|? ? B1 B2]; subst. inversion B2; subst. unfold byte_ok, rd16, U16 in *. lia.
    + intros _. left. exists a, b. split; [reflexivity|reflexivity].
Qed.
Lemma put_put k a b x : put k b (put k a x) = put k b x.
Proof. unfold put. cbn [streams lookups set_streams]. rewrite aset_aset. reflexivity. Qed.
Lemma umax_ok mx k q : max_ok mx -> 0 <= q < U64 -> max_ok (update_max_seq mx k q).
Proof.
  intros M Q k' q'. unfold update_max_seq. destruct (aget k mx) as [c|] eqn:E; [destruct (c <? q); [|apply M]|]; rewrite aset_get; destruct (k' =? k); try apply M; intro X; inversion X; subst; exact Q.
Qed.
Lemma unpad_bytes h raw data : bytes_ok raw -> unpad h raw = Ok data -> bytes_ok data.
Proof.
  intros B. unfold unpad. destruct (has_padding h); [|intro E; inversion E; subst; exact B]. intro E. destruct (proj2 (unpad_total raw B) _ E) as (t & ->). apply Forall_app in B as [B _]. exact B.
Qed.

Definition fin_of (x2 : sess) (now : Z) (m : list Z) (k : Z) (tw : list rxev) (s3 : srx) (h3 : header) (seq3 : Z) (t3 : mtime) (new3 : bool) (data3 : list Z) (mx3 : list (Z * Z)) : res (sess * list rxev) :=
  let x3 := set_maxseq (set_streams x2 (aset k s3 (streams x2)) (lookups x2)) mx3 in
  if k =? 0 then Ok (x3, tw)
  else
    let (s4, pk) := srx_rtp s3 now h3 data3 seq3 t3 in
    let x4 := set_streams x3 (aset k s4 (streams x3)) (lookups x3) in
    let n := bytes_rx x4 + zlen data3 in
    if rtp_mode x4 then Ok (set_pending x4 n (if new3 : bool then Some pk else pending x4), tw)
    else match find_media (medias x4) m with
         | None => Panic
         | Some _ => Ok (set_pending x4 n (pending x4), tw ++ [EvDepay m (s_rid s4) pk])
         end.
Lemma handle_rtp_total x now h dec : WF x -> 0 <= sequence_number h < U16 -> (forall q raw, dec q = Some raw -> bytes_ok raw) ->
  exists y evs x1 o, handle_rtp x now h dec = Ok (y, evs) /\ mid_for_header x now h = Ok (x1, o) /\ WF x1 /\
    match o with None => y = x1 /\ evs = [] | Some (m, k) => rxcase x1 now h dec m k y evs end.
Proof.
  intros W HS HD. destruct (wf_mid_for_header x now h W) as (x1 & o & EM & W1 & M1 & F). unfold handle_rtp. rewrite EM. cbn [bind].
  destruct o as [[m k]|]; [|do 4 eexists; split; [reflexivity|]; auto].
  destruct (F m k eq_refl) as (s & ES & EK). clear F.
  destruct (srtp x1) eqn:Esr; cbn [negb]; [|do 4 eexists; split; [reflexivity|]; split; [reflexivity|]; split; [exact W1|apply rc_skip; auto]].
  rewrite ES. fold (params_of x1 k (payload_type h)). destruct (params_of x1 k (payload_type h)) as [p|] eqn:EP;
    [|do 4 eexists; split; [reflexivity|]; split; [reflexivity|]; split; [exact W1|apply rc_skip; auto]].
  cbn zeta. set (rep := negb (p_pt p =? payload_type h)). destruct (extend_seq s h rep (seq_lookup (maxseq x1))) as [s1 seq] eqn:EE.
  pose proof (wf_str _ W1 _ _ (aget_some_in _ _ _ ES)) as I.
  pose proof (extend_seq_ok k s h rep (seq_lookup (maxseq x1)) s1 seq I (fun q Q => wf_max _ W1 _ _ Q) HS EE) as XX. cbn zeta in XX. destruct XX as (I1 & Hseq & Hmod & Es1 & _).
  set (r := opt_reg (reg_of rep s) (rnew (seq_lookup (maxseq x1) (ssrc h)))) in *.
  assert (reg_of rep s1 = Some r) as ER by (rewrite Es1; destruct rep; reflexivity).
  assert (is_new_packet s1 rep seq = Ok (raccepts r seq)) as EN by (unfold is_new_packet; fold (reg_of rep s1); rewrite ER; reflexivity).
  rewrite EN. cbn [bind].
  assert (RJ : forall C, (is_new_packet s1 rep seq = Ok false \/ dec seq = None \/ exists raw, dec seq = Some raw /\ unpad h raw = Err) -> C = Ok (set_streams x1 (aset k s1 (streams x1)) (lookups x1), []) ->
     exists y evs x2 o, C = Ok (y, evs) /\ Ok (x1, Some (m, k)) = Ok (x2, o) /\ WF x2 /\ match o with None => y = x2 /\ evs = [] | Some (m, k) => rxcase x2 now h dec m k y evs end).
  { intros C D ->. do 4 eexists. split; [reflexivity|]. split; [reflexivity|]. split; [exact W1|]. eapply rc_reject; eauto. }
  destruct (raccepts r seq) eqn:EA; cbn [negb]; [|apply RJ; auto; fail].
  destruct (dec seq) as [raw|] eqn:ED; [|apply RJ; auto].
  pose proof (HD _ _ ED) as BR. destruct (unpad h raw) as [data| |] eqn:EU.
  2:{ apply RJ; eauto. }
  2:{ exfalso. unfold unpad in EU. destruct (has_padding h); [|discriminate]. apply (proj1 (unpad_total raw BR)). exact EU. }
  pose proof (unpad_bytes _ _ _ BR EU) as BD.
  destruct (update_register_ok k s1 now h (p_clock p) rep seq r I1 Hseq ER) as (s2 & t2 & EUp & I2 & Md2 & Rd2 & Rx2 & Rc2 & Rg2 & Rn2).
  rewrite EA in EUp. rewrite EUp. cbn [bind]. set (mx := update_max_seq (maxseq x1) (ssrc h) seq).
  assert (max_ok mx) as MX by (apply umax_ok; [exact (wf_max _ W1)|exact Hseq]).
  set (fin := fin_of (put k s1 x1) now m k (tw_of h)).
  assert (FIN : forall s3 h3 seq3 t3 new3 data3 mx3, s_mid s3 = s_mid s2 -> inner now (p_clock p) (p_pt p) s2 h seq t2 true data mx rep s3 h3 seq3 t3 new3 data3 mx3 ->
     exists y evs x2 o, fin s3 h3 seq3 t3 new3 data3 mx3 = Ok (y, evs) /\ Ok (x1, Some (m, k)) = Ok (x2, o) /\ WF x2 /\ match o with None => y = x2 /\ evs = [] | Some (m, k) => rxcase x2 now h dec m k y evs end).
  { intros s3 h3 seq3 t3 new3 data3 mx3 EMd IN. unfold fin, fin_of.
    change (set_streams (put k s1 x1) (aset k s3 (streams (put k s1 x1))) (lookups (put k s1 x1))) with (put k s3 (put k s1 x1)). rewrite put_put.
    cbn zeta. destruct (k =? 0) eqn:K0.
    - do 4 eexists. split; [reflexivity|]. split; [reflexivity|]. split; [exact W1|]. apply Z.eqb_eq in K0. eapply rc_probe; try eassumption; try reflexivity.
    - apply Z.eqb_neq in K0. destruct (srx_rtp s3 now h3 data3 seq3 t3) as [s4 pk] eqn:ES4. cbn zeta.
      pose proof (rc_packet x1 now h dec m k s p s1 seq rep raw data s2 t2 true s3 h3 seq3 t3 new3 data3 mx3 s4 pk Esr ES EP eq_refl EE EN ED EU EUp IN K0 ES4) as RC.
      change (set_streams (set_maxseq (put k s3 x1) mx3) (aset k s4 (streams (set_maxseq (put k s3 x1) mx3))) (lookups (set_maxseq (put k s3 x1) mx3))) with (set_maxseq (put k s4 (put k s3 x1)) mx3). rewrite put_put.
      cbn [rtp_mode bytes_rx pending medias set_maxseq put set_streams].
      destruct (rtp_mode x1).
      + do 4 eexists. split; [reflexivity|]. split; [reflexivity|]. split; [exact W1|]. rewrite app_nil_r in RC. exact RC.
      + assert (find_media (medias x1) m <> None) as FM.
        { destruct EK as [?|EK]; [contradiction|]. destruct (wf_med _ W1 _ _ (aget_some_in _ _ _ ES)) as [?|X]; [contradiction|]. rewrite EK in X. exact X. }
        destruct (find_media (medias x1) m); [|contradiction]. do 4 eexists. split; [reflexivity|]. split; [reflexivity|]. split; [exact W1|exact RC]. }
  destruct rep eqn:Erep.
  - destruct (zlen data =? 0) eqn:EZ.
    + do 4 eexists. split; [reflexivity|]. split; [reflexivity|]. split; [exact W1|].
      change (set_streams x1 (aset k s1 (streams x1)) (lookups x1)) with (put k s1 x1).
      change (set_streams (put k s1 x1) (aset k s2 (streams (put k s1 x1))) (lookups (put k s1 x1))) with (put k s2 (put k s1 x1)). rewrite put_put.
      assert (data = []) by (destruct data; [reflexivity|pose proof (zlen_nonneg data); cbn in EZ; unfold zlen in *; cbn [length] in *; lia]). subst data.
      eapply rc_pad with (rep := true); try eassumption; try reflexivity; try (symmetry; exact Erep).
    + destruct (un_rtx s2 h data (p_pt p)) as [h' data'] eqn:EX. pose proof (un_rtx_fields _ _ _ _ _ _ EX) as (U1 & U2 & _).
      destruct (extend_seq s2 h' false (seq_lookup mx)) as [s3 seq'] eqn:EE'.
      pose proof (extend_seq_ok k s2 h' false (seq_lookup mx) s3 seq' I2 (fun q Q => MX _ _ Q) (U2 BD) EE') as YY. cbn zeta in YY. destruct YY as (I3 & Hseq' & _ & Es3 & _).
      destruct (update_register_ok k s3 now h' (p_clock p) false seq' (opt_reg (reg_of false s2) (rnew (seq_lookup mx (ssrc h')))) I3 Hseq' ltac:(rewrite Es3; reflexivity)) as (s4 & t4 & EU4 & I4 & Md4 & _).
      rewrite EU4. cbn [bind]. refine (FIN s4 h' seq' t4 _ data' _ _ _); [rewrite Md4, Es3; reflexivity|]. eapply in_rtx; eauto. intros ->. discriminate EZ.
  - refine (FIN s2 h seq t2 true data mx eq_refl _). apply in_main.
Qed.

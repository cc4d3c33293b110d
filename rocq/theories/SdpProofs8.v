(** What the codec negotiation sees is not changed by the text; candidates read by the other parser; what parsed
    descriptions satisfy. *)
From Coq Require Import String Ascii Permutation.
From Verif Require Import Base BaseFacts PayModel PrioModel TextModel TextFacts SdpModel SdpSpec SdpProofs1 SdpProofs2 SdpProofs3 SdpProofs4 SdpProofs5 SdpProofs6 SdpProofs7.

(** ** order of format parameters *)
Lemma set_comm : forall f p q, fp_key p <> fp_key q -> set_param (set_param f p) q = set_param (set_param f q) p.
Proof. intros [] p q H. destruct p, q; try reflexivity; exfalso; apply H; reflexivity. Qed.
Lemma fold_perm : forall (A B : Type) (g : B -> A -> B) (key : A -> nat) l l', Permutation l l' -> NoDup (map key l) ->
  (forall b x y, key x <> key y -> g (g b x) y = g (g b y) x) -> forall b, fold_left g l b = fold_left g l' b.
Proof.
  intros A B g key l l' P. induction P as [|x l l' P IH|x y l|l l' l'' P1 IH1 P2 IH2]; intros N C b.
  - reflexivity.
  - cbn [fold_left map] in *. inversion N; subst. apply IH; assumption.
  - cbn [fold_left map] in *. inversion N as [|? ? N1 N2]; subst. rewrite C; [reflexivity|]. intro E. apply N1. left. congruence.
  - rewrite IH1 by assumption. apply IH2; [|exact C]. eapply Permutation_NoDup; [apply Permutation_map; exact P1|exact N].
Qed.
Definition apt_step (maps : list (Z * (codec * Z * option Z))) (pt : Z) (p : pp) (q : fparam) : pp :=
  match q with
  | Apt v => if (v =? p_pt p) && existsb (fun m => (fst m =? pt) && codec_beq (fst (fst (snd m))) Rtx) maps
             then set_pts p (p_pt p) (Some pt) (p_locked p) else p
  | _ => p end.
Lemma apt_comm : forall maps pt p x y, apt_step maps pt (apt_step maps pt p x) y = apt_step maps pt (apt_step maps pt p y) x.
Proof.
  intros maps pt p x y. destruct x, y; try reflexivity. unfold apt_step.
  repeat match goal with |- context [if ?b then _ else _] => destruct b eqn:? end; cbn [set_pts p_pt p_locked] in *; try reflexivity; congruence.
Qed.
Lemma apply_perm : forall maps p pt l l', Permutation l l' -> NoDup (map fp_key l) -> apply_fmtp maps p (pt, l) = apply_fmtp maps p (pt, l').
Proof.
  intros maps p pt l l' P N. unfold apply_fmtp. fold (apt_step maps pt).
  rewrite (fold_perm _ _ set_param fp_key l l' P N) by (intros; apply set_comm; assumption).
  apply (fold_perm _ _ (apt_step maps pt) fp_key l l' P N). intros. apply apt_comm.
Qed.
Lemma apply_reads : forall maps p pt l l', fmtp_ok l -> fmtp_reads l l' -> apply_fmtp maps p (pt, l) = apply_fmtp maps p (pt, l').
Proof.
  intros maps p pt l l' (_ & H) R. unfold fmtp_reads in R. destruct (existsb is_ptl l) eqn:E.
  - destruct H as [H|(N & _)]; [discriminate|]. destruct R as (q & r & -> & _ & P). apply apply_perm; assumption.
  - subst. reflexivity.
Qed.
Lemma apply_nil : forall maps p pt, apply_fmtp maps p (pt, []) = p.
Proof. intros maps [x1 x2 [y1 y2 y3 y4] x4 x5 x6 x7 x8 x9] pt. unfold apply_fmtp. cbn [fold_left p_pt p_spec s_codec s_clock s_channels s_fmt]. destruct (pt =? _); reflexivity. Qed.
(** the three lists of the reader *)
Lemma maps_reads : forall e l l', Forall2 (mattr_reads e) (filter (fun a => negb (silent a)) l) l' ->
  filter_map map_of (map seen l') = filter_map map_of (map seen l).
Proof.
  intros e l. induction l as [|a l IH]; intros l' F; cbn [filter] in F.
  - inversion F; subst. reflexivity.
  - destruct (silent a) eqn:S; cbn [negb] in F.
    + rewrite (IH l' F). destruct a; try discriminate; reflexivity.
    + inversion F as [|? a' ? l0' R F']; subst. cbn [map filter_map]. rewrite (IH l0' F').
      destruct a; cbn [mattr_reads] in R; try (subst a'; reflexivity).
      * destruct R as (c' & -> & _). reflexivity.
      * destruct R as (v' & -> & _). reflexivity.
Qed.
Lemma fbs_reads : forall e l l', Forall2 (mattr_reads e) (filter (fun a => negb (silent a)) l) l' ->
  filter_map fb_of (map seen l') = filter_map fb_of (map seen l).
Proof.
  intros e l. induction l as [|a l IH]; intros l' F; cbn [filter] in F.
  - inversion F; subst. reflexivity.
  - destruct (silent a) eqn:S; cbn [negb] in F.
    + rewrite (IH l' F). destruct a; try discriminate; reflexivity.
    + inversion F as [|? a' ? l0' R F']; subst. cbn [map filter_map]. rewrite (IH l0' F').
      destruct a; cbn [mattr_reads] in R; try (subst a'; reflexivity).
      * destruct R as (c' & -> & _). reflexivity.
      * destruct R as (v' & -> & _). reflexivity.
Qed.
Lemma fm_reads : forall e maps l l', Forall mattr_ok l -> Forall2 (mattr_reads e) (filter (fun a => negb (silent a)) l) l' ->
  forall p, fold_left (apply_fmtp maps) (filter_map fmtp_of (map seen l')) p = fold_left (apply_fmtp maps) (filter_map fmtp_of (map seen l)) p.
Proof.
  intros e maps l. induction l as [|a l IH]; intros l' Hok F p; cbn [filter] in F.
  - inversion F; subst. reflexivity.
  - inversion Hok as [|? ? Ha Hl]; subst. destruct (silent a) eqn:S; cbn [negb] in F.
    + rewrite (IH l' Hl F). destruct a; try discriminate; [|reflexivity]. destruct v; [|discriminate].
      cbn [map seen filter_map fmtp_of fold_left]. rewrite apply_nil. reflexivity.
    + inversion F as [|? a' ? l0' R F']; subst. cbn [map filter_map].
      destruct a; cbn [mattr_reads] in R; try (subst a'; cbn [seen fmtp_of]; apply (IH l0' Hl F')).
      * destruct R as (c' & -> & _). cbn [seen fmtp_of]. apply (IH l0' Hl F').
      * destruct R as (v' & -> & R). cbn [seen fmtp_of fold_left]. rewrite (IH l0' Hl F').
        rewrite (apply_reads maps p pt v v') by (apply Ha || exact R). reflexivity.
Qed.
Lemma params_reads : forall e m m', mline_ok m -> mline_reads e m m' -> line_params_of m' = line_params_of m.
Proof.
  intros e m m' H R. unfold line_params_of, rtp_params.
  rewrite (mr_pts e m m' R), (maps_reads e _ _ (mr_attrs e m m' R)), (fbs_reads e _ _ (mr_attrs e m m' R)).
  apply map_ext. intros [pt [[c k] h]]. f_equal. apply (fm_reads e); [apply H|apply R].
Qed.
(** written attributes are seen as they are *)
Lemma seen_written : forall a, a <> OtherAttr -> (forall pt, a <> RtcpFb pt OtherFb) -> seen (written a) = a.
Proof. intros [| |pt []|] H N; try reflexivity; exfalso; (apply H; reflexivity) || (eapply N; reflexivity). Qed.
Lemma as_media_seen : forall p, map seen (map written (as_media_attrs p)) = as_media_attrs p.
Proof.
  intros p. unfold as_media_attrs. cbv zeta.
  destruct (p_tcc p), (p_remb p), (p_fir p), (p_nack p), (p_pli p), (to_format_param (s_fmt (p_spec p))), (p_resend p); reflexivity.
Qed.

(** ** the second candidate parser: words *)
Definition spaced (l : list str) : str := List.concat (map (cons 32) l).
Lemma words_go_ok : forall l fuel, Forall no_space l -> (length (spaced l) <= fuel)%nat -> words_go fuel (spaced l) = l.
Proof.
  induction l as [|w l IH]; intros fuel H F; (destruct fuel as [|f]; [try reflexivity; cbn in F; lia|]); cbn [spaced map List.concat words_go].
  - reflexivity.
  - inversion H as [|? ? [Nw Hw] Hl]; subst. cbn [app].
    assert (E1 : span is_space (32 :: w ++ spaced l) = ([32], w ++ spaced l)).
    { apply (span_app is_space [32]); [repeat constructor|]. destruct w as [|c w]; [congruence|]. inversion Hw; subst. assumption. }
    change (List.concat (map (cons 32) l)) with (spaced l). rewrite E1. cbn [snd].
    rewrite span_app.
    + destruct w as [|c w]; [congruence|]. rewrite IH; [reflexivity|exact Hl|].
      cbn [spaced map List.concat app length] in F. rewrite app_length in F. unfold spaced. cbn [length] in F. lia.
    + eapply Forall_impl; [|exact Hw]. cbn. intros c ->. reflexivity.
    + destruct l; [exact I|]. reflexivity.
Qed.
Lemma words_ok : forall w l, no_space w -> Forall no_space l -> words (w ++ spaced l) = w :: l.
Proof.
  intros w l [Nw Hw] Hl. unfold words. destruct (length (w ++ spaced l)) as [|f] eqn:F.
  - destruct w; [congruence|discriminate].
  - cbn [words_go]. assert (E1 : span is_space (w ++ spaced l) = ([], w ++ spaced l)).
    { apply (span_app is_space []); [constructor|]. destruct w as [|c w]; [congruence|]. inversion Hw; subst. assumption. }
    rewrite E1. cbn [snd]. rewrite span_app.
    + destruct w as [|c w]; [congruence|]. rewrite words_go_ok; [reflexivity|exact Hl|]. rewrite app_length in F. cbn [length] in F. lia.
    + eapply Forall_impl; [|exact Hw]. cbn. intros c ->. reflexivity.
    + destruct l; [exact I|]. reflexivity.
Qed.
Definition ext_words (e : env) (c : candidate) : list str :=
  (match cd_raddr c with Some (i, p) => [T "raddr"; ip_show e i; T "rport"; dec p] | None => [] end)
  ++ (match cd_tcp c with Some t => [T "tcptype"; show_tcp t] | None => [] end)
  ++ (match cd_ufrag c with Some u => [T "ufrag"; u] | None => [] end).
Lemma t_cand_words : forall e c f p, t_cand e c f p = T "candidate:" ++ f ++ spaced ([dec (cd_comp c); show_proto (cd_proto c); dec p; ip_show e (cd_ip c);
   dec (cd_port c); T "typ"; show_kind (cd_kind c)] ++ ext_words e c).
Proof.
  intros e c f p. assert (S : forall w l, spaced (w :: l) = T " " ++ w ++ spaced l) by reflexivity.
  unfold t_cand, ext_words, t_raddr, t_tcp, t_ufrag.
  change (T " typ ") with (T " " ++ T "typ" ++ T " "). change (T " raddr ") with (T " " ++ T "raddr" ++ T " ").
  change (T " rport ") with (T " " ++ T "rport" ++ T " "). change (T " tcptype ") with (T " " ++ T "tcptype" ++ T " ").
  change (T " ufrag ") with (T " " ++ T "ufrag" ++ T " ").
  destruct (cd_raddr c) as [[i q]|], (cd_tcp c) as [t|], (cd_ufrag c) as [u|]; cbn [app]; rewrite !S;
    change (spaced []) with (@nil Z); rewrite ?app_nil_r, <- ?app_assoc, ?app_nil_r; reflexivity.
Qed.
Lemma proto_no_space : forall p, no_space (show_proto p).
Proof. destruct p; (split; [discriminate|]); cbn; repeat (constructor; [reflexivity|]); constructor. Qed.
Lemma kind_no_space : forall k, no_space (show_kind k).
Proof. destruct k; (split; [discriminate|]); cbn; repeat (constructor; [reflexivity|]); constructor. Qed.
Lemma lit_no_space : forall s, s <> [] -> forallb (fun c => negb (is_space c)) s = true -> no_space s.
Proof. intros s N H. split; [exact N|]. apply Forall_forall. rewrite forallb_forall in H. intros c I. specialize (H c I). destruct (is_space c); [discriminate|reflexivity]. Qed.
Lemma kind_back : forall k, read_kind (show_kind k) = Some k.
Proof. destruct k; reflexivity. Qed.
Lemma strip_app : forall p s, strip p (p ++ s) = Some s.
Proof. induction p as [|x p IH]; intro s; [reflexivity|]. cbn. rewrite Z.eqb_refl. apply IH. Qed.
Lemma ext_words_ok : forall e c, env_ok e -> cand_ok c -> Forall no_space (ext_words e c).
Proof.
  intros e c He [_ _ _ _ Hra _ Huf]. unfold ext_words. rewrite !Forall_app. repeat match goal with |- _ /\ _ => split end.
  - destruct (cd_raddr c) as [[i p]|]; [|constructor]. specialize (Hra i p eq_refl). unfold u16 in Hra.
    repeat (apply Forall_cons; [first [apply lit_no_space; [discriminate|reflexivity]|apply (eo_word e He)|apply dec_no_space; lia]|]). constructor.
  - destruct (cd_tcp c); [|constructor]. repeat (apply Forall_cons; [first [apply tcp_word|apply lit_no_space; [discriminate|reflexivity]]|]). constructor.
  - destruct (cd_ufrag c); [|constructor]. apply Forall_cons; [apply lit_no_space; [discriminate|reflexivity]|]. apply Forall_cons; [apply Huf; reflexivity|constructor].
Qed.
Ltac keys := repeat match goal with |- context [seqb (T ?a) (T ?b)] => let x := eval vm_compute in (seqb (T a) (T b)) in change (seqb (T a) (T b)) with x; cbv iota end.
Lemma ext_read : forall e c, env_ok e -> cand_ok c ->
  cand_exts e (ext_words e c) (mkX None None None None) = Some (mkX (option_map fst (cd_raddr c)) (option_map snd (cd_raddr c)) (cd_tcp c) (cd_ufrag c)).
Proof.
  intros e c He [_ _ _ _ Hra Ht _]. unfold ext_words.
  destruct (cd_raddr c) as [[i p]|], (cd_tcp c) as [t|], (cd_ufrag c) as [u|]; cbn [app cand_exts]; keys;
    try (specialize (Hra i p eq_refl); unfold u16 in Hra); try (specialize (Ht t eq_refl));
    rewrite ?(eo_ip e He); cbn [cand_exts]; keys; unfold read_u16; rewrite ?read_dec by lia; cbn [cand_exts]; keys;
    rewrite ?(tcp_back t Ht); cbn [cand_exts x_raddr x_rport x_tcp x_ufrag option_map fst snd]; keys; reflexivity.
Qed.
Lemma cand_parse_ok : forall e c f p, env_ok e -> cand_ok c -> no_space f -> u32 p ->
  cand_parse e (t_cand e c f p) = Some (read_as c f p).
Proof.
  intros e c f p He Hc Hf Hp. rewrite t_cand_words. unfold cand_parse. rewrite strip_app.
  pose proof (co_comp c Hc) as Hcomp. pose proof (co_port c Hc) as Hport. unfold u16, u32 in *.
  rewrite words_ok.
  - cbn [app]. unfold read_u16, read_u32. rewrite !read_dec by lia. rewrite proto_back, (eo_ip e He), kind_back. rewrite seqb_refl. cbn [negb].
    rewrite ext_read by assumption. unfold read_as. destruct (cd_raddr c) as [[i q]|]; reflexivity.
  - exact Hf.
  - apply Forall_app. split; [|apply ext_words_ok; assumption].
    repeat (apply Forall_cons; [first [apply proto_no_space|apply kind_no_space|apply (eo_word e He)|apply lit_no_space; [discriminate|reflexivity]|apply dec_no_space; lia]|]). constructor.
Qed.

(** ** what holds of everything that is parsed *)
Definition always {A} (P : A -> Prop) (p : parser A) : Prop := forall s c v r, p s = POk c v r -> P v.
Lemma always_attempt : forall A (P : A -> Prop) p, always P p -> always P (attempt p).
Proof. intros A P p H s c v r E. unfold attempt in E. destruct (p s) eqn:F; [|discriminate]. injection E as <- <- <-. eapply H. exact F. Qed.
Lemma always_choice : forall A (P : A -> Prop) l, (forall p, In p l -> always P p) -> always P (choice l).
Proof.
  intros A P l. induction l as [|p l IH]; intros H s c v r E; [discriminate|]. cbn [choice] in E.
  destruct (p s) as [c' v' r'|[]] eqn:F.
  - injection E as <- <- <-. eapply H; [left; reflexivity|exact F].
  - discriminate.
  - eapply IH; [|exact E]. intros; apply H; right; assumption.
Qed.
Lemma always_map : forall A B (f : A -> B) (P : B -> Prop) p, always (fun v => P (f v)) p -> always P (pmap f p).
Proof. intros A B f P p H s c v r E. unfold pmap in E. destruct (p s) eqn:F; [|discriminate]. injection E as <- <- <-. eapply H. exact F. Qed.
Lemma always_and : forall A B (f : A -> option B) (P : B -> Prop) p, (forall v w, f v = Some w -> P w) -> always P (pand p f).
Proof.
  intros A B f P p H s c v r E. unfold pand in E. destruct (p s) as [c0 v0 r0|]; [|discriminate]. destruct (f v0) eqn:F; [|discriminate].
  injection E as <- <- <-. eapply H. exact F.
Qed.
Lemma always_and2 : forall A B (f : A -> option B) (Q : A -> Prop) (P : B -> Prop) p, always Q p -> (forall v w, Q v -> f v = Some w -> P w) -> always P (pand p f).
Proof.
  intros A B f Q P p HQ H s c v r E. unfold pand in E. destruct (p s) as [c0 v0 r0|] eqn:G; [|discriminate]. destruct (f v0) eqn:F; [|discriminate].
  injection E as <- <- <-. eapply H; [|exact F]. eapply HQ. exact G.
Qed.
Lemma always_bind : forall A B (p : parser A) (k : A -> parser B) (Q : A -> Prop) (P : B -> Prop),
  always Q p -> (forall v, Q v -> always P (k v)) -> always P (pbind p k).
Proof.
  intros A B p k Q P H K s c v r E. unfold pbind in E. destruct (p s) as [c1 v1 r1|] eqn:F; [|discriminate].
  destruct (k v1 r1) as [c2 v2 r2|] eqn:G; [|discriminate]. injection E as <- <- <-. eapply K; [|exact G]. eapply H. exact F.
Qed.
Lemma always_true : forall A (p : parser A), always (fun _ => True) p.
Proof. intros A p s c v r E. exact I. Qed.
Lemma always_ret : forall A (P : A -> Prop) v, P v -> always P (ret v).
Proof. intros A P v H s c w r E. unfold ret in E. injection E as <- <- <-. exact H. Qed.
Lemma always_opt : forall A (P : A -> Prop) p, always P p -> always (fun o => match o with Some v => P v | None => True end) (optional p).
Proof.
  intros A P p H s c v r E. unfold optional in E. destruct (p s) as [c1 v1 r1|[]] eqn:F; try discriminate.
  - injection E as <- <- <-. eapply H. exact F.
  - injection E as <- <- <-. exact I.
Qed.
Lemma always_many : forall A (P : A -> Prop) p, always P p -> always (Forall P) (many p).
Proof.
  intros A P p H s c v r E. unfold many in E. revert E. generalize (length s) as fuel. generalize false as b. intros b fuel. revert b s c v r.
  induction fuel as [|f IH]; intros b s c v r E; cbn [many_go] in E; [injection E as <- <- <-; constructor|].
  destruct (p s) as [[] v1 r1|[]] eqn:F.
  - destruct (many_go f p true r1) as [c2 l2 r2|] eqn:G; [|discriminate]. injection E as <- <- <-. constructor; [eapply H; exact F|eapply IH; exact G].
  - discriminate.
  - discriminate.
  - injection E as <- <- <-. constructor.
Qed.
Lemma always_line : forall A (P : A -> Prop) t v, always P v -> always P (pline t v).
Proof.
  intros A P t v H. unfold pline. apply always_attempt. eapply always_bind; [apply always_true|]. intros _ _.
  eapply always_bind; [apply always_true|]. intros _ _. eapply always_bind; [exact H|]. intros w Hw.
  eapply always_bind; [apply always_true|]. intros _ _. apply always_ret. exact Hw.
Qed.
Lemma always_attr : forall A (P : A -> Prop) n v, always P v -> always P (attribute_line n v).
Proof.
  intros A P n v H. apply always_line. eapply always_bind; [apply always_true|]. intros _ _.
  eapply always_bind; [apply always_true|]. intros _ _. exact H.
Qed.
Lemma num_val_nonneg : forall base s acc v, 0 <= base -> 0 <= acc -> num_val base s acc = Some v -> 0 <= v.
Proof.
  intros base s. induction s as [|c s IH]; intros acc v Hb Ha E; cbn [num_val] in E; [congruence|].
  destruct (digit_val base c) as [d|] eqn:D; [|discriminate]. apply IH in E; [exact E|exact Hb|].
  unfold digit_val, is_digit in D. assert (0 <= d).
  { destruct ((48 <=? c) && (c <=? 57)) eqn:A1; [destruct (c - 48 <? base); [injection D as <-; lia|discriminate]|].
    destruct ((65 <=? c) && (c <=? 70)) eqn:A2; [destruct (c - 55 <? base); [injection D as <-; lia|discriminate]|].
    destruct ((97 <=? c) && (c <=? 102)) eqn:A3; [destruct (c - 87 <? base); [injection D as <-; lia|discriminate]|discriminate]. }
  nia.
Qed.
Lemma read_num_range : forall base max s v, 0 <= base -> read_num base max s = Some v -> 0 <= v <= max.
Proof.
  intros base max s v Hb E. unfold read_num in E. set (t := match s with 43 :: r => r | _ => s end) in E.
  destruct t as [|c t]; [discriminate|]. destruct (num_val base (c :: t) 0) as [x|] eqn:N; [|discriminate].
  destruct (Z.leb_spec x max); [|discriminate]. injection E as <-. apply num_val_nonneg in N; lia.
Qed.
Lemma always_pt : always pt_ok p_ptype.
Proof.
  unfold p_ptype. apply always_and. intros s w E. destruct (read_u8 s) as [v|] eqn:R; [|discriminate]. apply read_num_range in R; [|lia].
  destruct (Z.ltb_spec 127 v); [discriminate|]. injection E as <-. unfold pt_ok. lia.
Qed.
Lemma always_sep : forall A B (P : A -> Prop) (p : parser A) (sep : parser B), always P p -> always (Forall P) (sep_by1 p sep).
Proof.
  intros A B P p sep H. unfold sep_by1. eapply always_bind; [exact H|]. intros v Hv. apply always_map.
  intros s c l r E. constructor; [exact Hv|]. eapply (always_many A P (pbind sep (fun _ => p))); [|exact E].
  eapply always_bind; [apply always_true|]. intros _ _. exact H.
Qed.
Lemma take1_ne : forall f, always (fun v => v <> []) (take1 f).
Proof. intros f s c v r E. unfold take1 in E. destruct (span f s) as [[|x a] b]; [discriminate|]. injection E as <- <- <-. discriminate. Qed.
Lemma mid_from_ok : forall s, s <> [] -> mid_ok (mid_from s).
Proof.
  intros s N. unfold mid_from. split; [|split].
  - destruct s; [congruence|discriminate].
  - unfold zlen. rewrite firstn_length. lia.
  - apply Forall_forall. intros c I. assert (In c (map (fun c => if ascii_alnum c then c else 95) s)) by (rewrite <- (firstn_skipn 16); apply in_or_app; left; exact I).
    match goal with H : In c (map _ s) |- _ => apply in_map_iff in H; destruct H as (x & E & _) end. subst c.
    unfold ascii_alnum, is_digit, is_upper, is_lower, plain. destruct (_ || _) eqn:B; [left; lia|right; reflexivity].
Qed.
Lemma always_mattr : forall e, always parsed_ok (p_mattr e).
Proof.
  intro e. unfold p_mattr. apply always_choice. intros p [<-|[<-|[<-|[]]]].
  - apply always_attempt. apply always_choice. intros p I. unfold media_alts1 in I. cbn [In] in I.
    repeat match goal with H : _ \/ _ |- _ => destruct H as [<-|H] end; try (destruct I; fail); apply always_attempt;
      try (apply always_map; exact (always_true _ _)).
    + apply always_map. apply always_attr. intros s c v r E. cbn [parsed_ok]. apply mid_from_ok. eapply take1_ne. exact E.
    + apply always_attr. repeat (eapply always_bind; [apply always_true|intros ? _]). apply always_ret. exact I.
    + apply always_choice. intros p J. cbn [In] in J. repeat match goal with H : _ \/ _ |- _ => destruct H as [<-|H] end; try (destruct J; fail);
        apply always_attempt; apply always_map; exact (always_true _ _).
    + apply always_attr. repeat (eapply always_bind; [apply always_true|intros ? _]). apply always_ret. exact I.
  - apply always_attempt. apply always_choice. intros p I. unfold media_alts2 in I. cbn [In] in I.
    repeat match goal with H : _ \/ _ |- _ => destruct H as [<-|H] end; try (destruct I; fail); apply always_attempt;
      try (apply always_map; exact (always_true _ _)).
    + apply always_attr. eapply always_bind; [apply always_pt|]. intros pt Hpt. repeat (eapply always_bind; [apply always_true|intros ? _]). apply always_ret. exact Hpt.
    + apply always_attr. eapply always_bind; [apply always_pt|]. intros pt Hpt. repeat (eapply always_bind; [apply always_true|intros ? _]). apply always_ret. exact Hpt.
    + apply always_choice. intros p [<-|[<-|[]]]; apply always_attempt; apply always_attr;
        (eapply always_bind; [apply always_pt|]); intros pt Hpt; repeat (eapply always_bind; [apply always_true|intros ? _]); apply always_ret; exact Hpt.
    + unfold p_rid. apply always_attr. do 3 (eapply always_bind; [apply always_true|intros ? _]).
      eapply always_bind.
      * apply (always_opt _ (fun x => match x with (Some l, _) => Forall pt_ok l | _ => True end)).
        eapply always_bind; [apply always_true|intros ? _]. eapply always_bind.
        -- apply (always_opt _ (Forall pt_ok)). eapply always_bind; [apply always_true|intros ? _].
           eapply always_bind; [apply always_sep; apply always_pt|]. intros l Hl. eapply always_bind; [apply always_true|intros ? _]. apply always_ret. exact Hl.
        -- intros ps Hps. eapply always_bind; [apply always_true|intros ? _]. apply always_ret. destruct ps; exact Hps.
      * intros x Hx. apply always_ret. destruct x as [[[l|] rs]|]; cbn [parsed_ok]; [exact Hx|constructor|constructor].
    + apply always_attr. apply always_choice. intros p [<-|[<-|[]]]; repeat (eapply always_bind; [apply always_true|intros ? _]); apply always_ret; exact I.
    + apply always_attr. repeat (eapply always_bind; [apply always_true|intros ? _]). apply always_ret. exact I.
    + apply always_attr. repeat (eapply always_bind; [apply always_true|intros ? _]). apply always_ret. exact I.
  - apply always_map. exact (always_true _ _).
Qed.
Lemma always_mline : forall e, always (fun m => consistent m /\ Forall parsed_ok (ml_attrs m)) (p_mline e).
Proof.
  intro e. unfold p_mline. eapply always_and2 with (Q := fun m => Forall parsed_ok (ml_attrs m)).
  - eapply always_bind; [apply always_true|intros h _]. do 2 (eapply always_bind; [apply always_true|intros ? _]).
    eapply always_bind; [apply always_many; apply always_mattr|]. intros a Ha. apply always_ret. destruct h as [[[t po] pr] pts]. exact Ha.
  - intros m w Hm E. destruct (check_consistent m) eqn:C; [|discriminate]. injection E as <-. split; [apply check_iff; exact C|exact Hm].
Qed.
Lemma sdp_parsed : forall e s d, sdp_parse e s = Some d -> Forall (fun m => consistent m /\ Forall parsed_ok (ml_attrs m)) (sd_lines d).
Proof.
  intros e s d E. unfold sdp_parse in E. destruct (p_sdp e s) as [c v r|] eqn:F; [|discriminate]. injection E as <-. revert F.
  unfold p_sdp. do 8 (apply (always_bind _ _ _ _ (fun _ => True) (fun d => Forall (fun m => consistent m /\ Forall parsed_ok (ml_attrs m)) (sd_lines d))); [apply always_true|intros ? _]).
  eapply always_bind; [apply always_many; apply always_mline|]. intros m Hm. apply always_ret. exact Hm.
Qed.

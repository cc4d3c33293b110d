(** Reading single lines. *)
From Coq Require Import String Ascii Permutation.
From Verif Require Import Base BaseFacts PayModel PrioModel TextModel TextFacts SdpModel SdpSpec.

Lemma T_ne : forall a s, T (String a s) <> [].
Proof. intros. discriminate. Qed.

(** ** line ends *)
Definition ends (s : str) : bool :=
  match s with [] => true | 10 :: _ => true | 13 :: 10 :: _ => true | _ => false end.
Lemma line_end_ok : forall r, line_end (crlf ++ r) = POk true tt r.
Proof. reflexivity. Qed.
Lemma line_end_cases : forall s, fails line_end s \/ exists b r, line_end s = POk b tt r.
Proof. intro s. unfold fails. destruct (line_end s) as [b [] r|b]; [right|left]; eauto. Qed.
Lemma line_end_fail : forall s, ends s = false -> fails line_end s.
Proof.
  intros s H. destruct s as [|c s]; [discriminate|]. unfold fails, line_end, choice, pmap, pbind, token, satisfy, eof.
  destruct (Z.eqb_spec 13 c) as [<-|N].
  - destruct s as [|d s]; [eexists; reflexivity|]. destruct (Z.eqb_spec 10 d) as [<-|M]; [discriminate|].
    cbn. eexists; reflexivity.
  - destruct (Z.eqb_spec 10 c) as [<-|M]; [discriminate|]. eexists; reflexivity.
Qed.
Lemma not_eol_iff : forall c, not_eol c = true <-> c <> 13 /\ c <> 10.
Proof. intro c. unfold not_eol. lia. Qed.
Lemma not_spc_iff : forall c, not_spc c = true <-> c <> 32 /\ c <> 13 /\ c <> 10.
Proof. intro c. unfold not_spc, not_eol. lia. Qed.
Lemma any_ok : forall v r, line_text v -> any_value (v ++ crlf ++ r) = POk true v (crlf ++ r).
Proof.
  intros v r [N H]. apply take1_ok; [exact N| |reflexivity].
  eapply Forall_impl; [|exact H]. intros c Hc. apply not_eol_iff. exact Hc.
Qed.
Lemma not_sp_ok : forall v r, word v -> stop not_spc r -> not_sp (v ++ r) = POk true v r.
Proof.
  intros v r [N H] S. apply take1_ok; [exact N| |exact S].
  eapply Forall_impl; [|exact H]. intros c Hc. apply not_spc_iff. exact Hc.
Qed.
Lemma dec_word : forall n, 0 <= n -> word (dec n).
Proof.
  intros n H. destruct (dec_digits n H) as [N D]. split; [exact N|]. eapply Forall_impl; [|exact D]. cbn. intros; lia.
Qed.
Lemma num_ok : forall max n r, 0 <= n <= max -> stop not_spc r -> pand not_sp (read_num 10 max) (dec n ++ r) = POk true n r.
Proof. intros. eapply pand_ok; [apply not_sp_ok; [apply dec_word; lia|assumption]|apply read_dec; assumption]. Qed.
Lemma pt_read : forall n r, pt_ok n -> stop not_spc r -> p_ptype (dec n ++ r) = POk true n r.
Proof.
  unfold pt_ok. intros n r H S. eapply pand_ok; [apply not_sp_ok; [apply dec_word; lia|assumption]|].
  unfold read_u8. rewrite read_dec by lia. destruct (Z.ltb_spec 127 n); [lia|reflexivity].
Qed.

(** ** lines *)
Lemma pline_ok : forall A (typ : parser Z) (val : parser A) t s c v r,
  typ (t :: 61 :: s) = POk true t (61 :: s) -> val s = POk c v (crlf ++ r) -> pline typ val (t :: 61 :: s) = POk true v r.
Proof.
  intros. unfold pline. eapply attempt_ok. eapply pbind_okt; [eassumption|]. eapply pbind_okt; [reflexivity|].
  eapply pbind_ok; [eassumption|]. eapply pbind_ok; [apply line_end_ok|]. reflexivity.
Qed.
Lemma typed_ok : forall A t (val : parser A) s c v r,
  val s = POk c v (crlf ++ r) -> typed_line t val (t :: 61 :: s) = POk true v r.
Proof. intros. eapply pline_ok; [|eassumption]. unfold token, satisfy. rewrite Z.eqb_refl. reflexivity. Qed.
Lemma typed_fail : forall A t (val : parser A) s, fails val s -> fails (typed_line t val) (t :: 61 :: s).
Proof.
  intros A t val s H. exists false. apply fails_attempt.
  assert (E : token t (t :: 61 :: s) = POk true t (61 :: s)) by (unfold token, satisfy; rewrite Z.eqb_refl; reflexivity).
  eapply fails_bind2; [exact E|]. eapply fails_bind2; [reflexivity|]. apply fails_bind1. exact H.
Qed.
Lemma typed_other : forall A t (val : parser A) c s, c <> t -> typed_line t val (c :: s) = PErr false.
Proof.
  intros A t val c s H. unfold typed_line, pline. apply fails_attempt. exists false. apply bind_peek.
  unfold token, satisfy. destruct (Z.eqb_spec t c); [congruence|reflexivity].
Qed.
Lemma typed_end : forall A t (val : parser A), typed_line t val [] = PErr false.
Proof. reflexivity. Qed.
Lemma attr_ok : forall A n (val : parser A) s c v r,
  n <> [] -> val s = POk c v (crlf ++ r) -> attribute_line n val (97 :: 61 :: n ++ 58 :: s) = POk true v r.
Proof.
  intros A n val s c v r N H. eapply typed_ok with (c := true). eapply pbind_okt; [apply lit_ok; exact N|].
  eapply pbind_okt; [reflexivity|exact H].
Qed.
Lemma attr_fail : forall A n (val : parser A) s, prefixb (n ++ [58]) s = false -> fails (attribute_line n val) (97 :: 61 :: s).
Proof.
  intros A n val s H. apply typed_fail. rewrite prefixb_app in H. apply andb_false_iff in H. unfold lit.
  destruct (prefixb n s) eqn:E.
  - destruct H as [H|H]; [discriminate|]. destruct (lit_go_pre n false s E) as [c L].
    eapply fails_bind2; [exact L|]. apply fails_bind1. exists false. unfold token, satisfy.
    destruct (skipn (length n) s) as [|d t]; [reflexivity|]. cbn [prefixb] in H. rewrite andb_true_r in H. rewrite H. reflexivity.
  - apply fails_bind1. apply lit_go_fail. exact E.
Qed.
Definition flagb (n s : str) : bool := prefixb n s && ends (skipn (length n) s).
Lemma flag_ok : forall n r, n <> [] -> attribute_flag n (97 :: 61 :: n ++ crlf ++ r) = POk true tt r.
Proof. intros n r N. eapply typed_ok. apply lit_ok. exact N. Qed.
Lemma flag_fail : forall n s, flagb n s = false -> fails (attribute_flag n) (97 :: 61 :: s).
Proof.
  intros n s H. unfold flagb in H. apply andb_false_iff in H. unfold attribute_flag, typed_line, pline.
  exists false. apply fails_attempt. eapply fails_bind2; [reflexivity|]. eapply fails_bind2; [reflexivity|].
  destruct (prefixb n s) eqn:E.
  - destruct H as [H|H]; [discriminate|]. destruct (lit_go_pre n false s E) as [c L].
    eapply fails_bind2; [exact L|]. apply fails_bind1. apply line_end_fail. exact H.
  - apply fails_bind1. apply lit_go_fail. exact E.
Qed.

(** ** candidates *)
Lemma no_space_word : forall v, no_space v -> word v.
Proof.
  intros v [N H]. split; [exact N|]. eapply Forall_impl; [|exact H]. intros c Hc. unfold is_space in Hc. lia.
Qed.
Lemma opt_lit_none : forall A l (k : unit -> parser A) s, prefixb l s = false ->
  optional (pbind (attempt (lit l)) k) s = POk false None s.
Proof. intros. apply optional_none. apply bind_peek. apply fails_attempt. apply lit_go_fail. assumption. Qed.
Lemma pbind_okf : forall A B (p : parser A) (k : A -> parser B) s v r c' w r',
  p s = POk false v r -> k v r = POk c' w r' -> pbind p k s = POk c' w r'.
Proof. intros. unfold pbind. rewrite H, H0. reflexivity. Qed.
Lemma kind_ok : forall k r, p_kind (show_kind k ++ r) = POk true k r.
Proof. destruct k; reflexivity. Qed.
Lemma proto_back : forall p, read_proto (show_proto p) = Some p.
Proof. destruct p; reflexivity. Qed.
Lemma proto_word : forall p, word (show_proto p).
Proof. destruct p; (split; [discriminate|]); cbn; repeat (constructor; [lia|]); constructor. Qed.
Lemma tcp_back : forall t, (t <= 2)%nat -> read_tcp (show_tcp t) = Some t.
Proof. intros t H. destruct t as [|[|[|t]]]; try reflexivity. lia. Qed.
Lemma tcp_word : forall t, no_space (show_tcp t).
Proof. intros t. destruct t as [|[|t]]; (split; [discriminate|]); cbn; repeat (constructor; [reflexivity|]); constructor. Qed.
Lemma hex_no_space : forall s, s <> [] -> Forall (dig_ok 16) s -> no_space s.
Proof.
  intros s N H. split; [exact N|]. eapply Forall_impl; [|exact H]. intros c Hc. apply dig16 in Hc. unfold is_space. lia.
Qed.
Lemma dec_no_space : forall n, 0 <= n -> no_space (dec n).
Proof.
  intros n H. destruct (dec_digits n H) as [N D]. split; [exact N|]. eapply Forall_impl; [|exact D]. cbn. intros c Hc. unfold is_space. lia.
Qed.
Lemma swap_nonneg : forall v, 0 <= v -> 0 <= swap32 v.
Proof. intros v H. unfold swap32. dlia. Qed.
Lemma foundation_ok : forall e c, env_ok e -> cand_ok c -> exists f, foundation e c = Ok f /\ no_space f.
Proof.
  intros e c He Hc. unfold foundation. destruct (cd_found c) as [f|] eqn:E.
  - exists f. split; [reflexivity|]. apply (co_found c Hc). exact E.
  - destruct (co_prio c Hc) as (p & Ep & Hp). rewrite Ep. cbn [bind]. eexists. split; [reflexivity|].
    set (h := fn_hash e _ _ _ _). assert (Hh : 0 <= h) by apply (eo_hash e He).
    destruct (pad_num false 16 8 (swap32 p)) as (N1 & D1 & _); [lia|apply swap_nonneg; destruct Hp; lia|].
    destruct (show_num_val false 16 h) as (N2 & D2 & _); [lia|exact Hh|].
    apply hex_no_space.
    + destruct (pad 8 (show_num false 16 (swap32 p))); [congruence|discriminate].
    + apply Forall_app. auto.
Qed.
Lemma ip_word : forall e i, env_ok e -> word (ip_show e i).
Proof. intros e i He. apply no_space_word. destruct (eo_word e He i). split; assumption. Qed.
Lemma ip_ok : forall e i r, env_ok e -> stop not_spc r -> pand not_sp (ip_read e) (ip_show e i ++ r) = POk true i r.
Proof. intros. eapply pand_ok; [apply not_sp_ok; [apply ip_word; assumption|assumption]|apply eo_ip; assumption]. Qed.

Definition t_tcp (c : candidate) : str := match cd_tcp c with Some t => T " tcptype " ++ show_tcp t | None => [] end.
Definition t_ufrag (c : candidate) : str := match cd_ufrag c with Some u => T " ufrag " ++ u | None => [] end.
Definition t_raddr (e : env) (c : candidate) : str :=
  match cd_raddr c with Some (i, p) => T " raddr " ++ ip_show e i ++ T " rport " ++ dec p | None => [] end.
Definition t_cand (e : env) (c : candidate) (f : str) (p : Z) : str :=
  T "candidate:" ++ f ++ T " " ++ dec (cd_comp c) ++ T " " ++ show_proto (cd_proto c) ++ T " " ++ dec p ++ T " "
      ++ ip_show e (cd_ip c) ++ T " " ++ dec (cd_port c) ++ T " typ " ++ show_kind (cd_kind c)
      ++ t_raddr e c ++ t_tcp c ++ t_ufrag c.
Definition read_as (c : candidate) (f : str) (p : Z) : candidate :=
  from_parts f (cd_comp c) (cd_proto c) p (cd_ip c) (cd_port c) (cd_kind c) (cd_raddr c) (cd_tcp c) (cd_ufrag c).

Lemma cand_read : forall e c f p r, env_ok e -> cand_ok c -> no_space f -> u32 p ->
  p_cand e (t_cand e c f p ++ crlf ++ r) = POk true (read_as c f p) (crlf ++ r).
Proof.
  intros e c f p r He Hc Hf Hp. unfold t_cand. rewrite <- !app_assoc.
  destruct Hc as [_ Hcomp _ Hport Hra Htcp Huf]. apply no_space_word in Hf.
  unfold u16, u32 in *. unfold p_cand.
  (* the optional parts *)
  assert (S2 : stop not_spc (t_ufrag c ++ crlf ++ r)) by (unfold t_ufrag; destruct (cd_ufrag c); reflexivity).
  assert (S1 : stop not_spc (t_tcp c ++ t_ufrag c ++ crlf ++ r)) by (unfold t_tcp; destruct (cd_tcp c); [reflexivity|exact S2]).
  assert (S0 : stop not_spc (t_raddr e c ++ t_tcp c ++ t_ufrag c ++ crlf ++ r)) by (unfold t_raddr; destruct (cd_raddr c) as [[? ?]|]; [reflexivity|exact S1]).
  assert (R1 : exists b, optional (pdo _a <- attempt (lit (T " raddr ")); pdo i <- pand not_sp (ip_read e);
                      pdo _b <- lit (T " rport "); pdo p <- pand not_sp read_u16; ret (i, p)) (t_raddr e c ++ t_tcp c ++ t_ufrag c ++ crlf ++ r)
              = POk b (cd_raddr c) (t_tcp c ++ t_ufrag c ++ crlf ++ r)).
  { unfold t_raddr. destruct (cd_raddr c) as [[i q]|] eqn:Er.
    - exists true. rewrite <- !app_assoc. eapply optional_some.
      eapply pbind_okt; [apply attempt_ok; apply lit_ok; discriminate|].
      eapply pbind_okt; [apply ip_ok; [exact He|reflexivity]|].
      eapply pbind_okt; [apply lit_ok; discriminate|].
      eapply pbind_okt; [apply num_ok; [apply (Hra i q eq_refl)|exact S1]|]. reflexivity.
    - exists false. cbn [app]. apply opt_lit_none. unfold t_tcp, t_ufrag.
      destruct (cd_tcp c); [reflexivity|]. destruct (cd_ufrag c); reflexivity. }
  assert (R2 : exists b, optional (pdo _a <- attempt (lit (T " tcptype ")); pand not_sp read_tcp) (t_tcp c ++ t_ufrag c ++ crlf ++ r)
              = POk b (cd_tcp c) (t_ufrag c ++ crlf ++ r)).
  { unfold t_tcp. destruct (cd_tcp c) as [t|] eqn:Et.
    - exists true. rewrite <- !app_assoc. eapply optional_some.
      eapply pbind_okt; [apply attempt_ok; apply lit_ok; discriminate|].
      eapply pand_ok; [apply not_sp_ok; [apply no_space_word; apply tcp_word|exact S2]|]. apply tcp_back. apply Htcp. reflexivity.
    - exists false. cbn [app]. apply opt_lit_none. unfold t_ufrag. destruct (cd_ufrag c); reflexivity. }
  assert (R3 : exists b, optional (pdo _a <- attempt (lit (T " ufrag ")); not_sp) (t_ufrag c ++ crlf ++ r) = POk b (cd_ufrag c) (crlf ++ r)).
  { unfold t_ufrag. destruct (cd_ufrag c) as [u|] eqn:Eu.
    - exists true. rewrite <- !app_assoc. eapply optional_some.
      eapply pbind_okt; [apply attempt_ok; apply lit_ok; discriminate|].
      apply not_sp_ok; [apply no_space_word; apply Huf; reflexivity|reflexivity].
    - exists false. cbn [app]. apply opt_lit_none. reflexivity. }
  destruct R1 as [b1 R1]. destruct R2 as [b2 R2]. destruct R3 as [b3 R3].
  eapply pbind_okt; [apply lit_ok; discriminate|].
  eapply pbind_okt; [apply not_sp_ok; [exact Hf|reflexivity]|]. eapply pbind_okt; [reflexivity|].
  eapply pbind_okt; [apply num_ok; [exact Hcomp|reflexivity]|]. eapply pbind_okt; [reflexivity|].
  eapply pbind_okt; [eapply pand_ok; [apply not_sp_ok; [apply proto_word|reflexivity]|apply proto_back]|]. eapply pbind_okt; [reflexivity|].
  eapply pbind_okt; [apply num_ok; [exact Hp|reflexivity]|]. eapply pbind_okt; [reflexivity|].
  eapply pbind_okt; [apply ip_ok; [exact He|reflexivity]|]. eapply pbind_okt; [reflexivity|].
  eapply pbind_okt; [apply num_ok; [exact Hport|reflexivity]|]. eapply pbind_okt; [apply lit_ok; discriminate|].
  eapply pbind_okt; [apply kind_ok|].
  eapply pbind_ok; [exact R1|]. eapply pbind_ok; [exact R2|].
  eapply pbind_okf; [apply opt_lit_none; unfold t_ufrag; destruct (cd_ufrag c); reflexivity|].
  eapply pbind_okf; [apply opt_lit_none; unfold t_ufrag; destruct (cd_ufrag c); reflexivity|].
  eapply pbind_ok; [exact R3|].
  eapply pbind_okf; [apply opt_lit_none; reflexivity|]. reflexivity.
Qed.
Lemma show_cand_is : forall e c f p, foundation e c = Ok f -> cand_prio c = Ok p -> show_cand e c = Ok (t_cand e c f p).
Proof. intros e c f p Hf Hp. unfold show_cand. rewrite Hf, Hp. cbn [bind]. reflexivity. Qed.
Lemma cand_full : forall e c, env_ok e -> cand_ok c ->
  exists s c', show_cand e c = Ok s /\ prefixb (T "candidate:") s = true /\ seen_as e c c' /\
    forall r, p_cand_attr e (97 :: 61 :: s ++ crlf ++ r) = POk true c' r.
Proof.
  intros e c He Hc. destruct (foundation_ok e c He Hc) as (f & Ef & Hf). destruct (co_prio c Hc) as (p & Ep & Hp).
  exists (t_cand e c f p), (read_as c f p). split; [apply show_cand_is; assumption|]. split; [reflexivity|]. split.
  - exists f, p. unfold read_as, from_parts. cbn [cd_found cd_comp cd_proto cd_prio cd_ip cd_port cd_base cd_kind cd_raddr cd_tcp cd_ufrag cd_local cd_lpref cd_disc].
    repeat (split; [assumption || reflexivity|]). destruct (cd_kind c); reflexivity.
  - intro r. unfold p_cand_attr.
    change (97 :: 61 :: t_cand e c f p ++ crlf ++ r) with (T "a=" ++ t_cand e c f p ++ crlf ++ r).
    eapply pbind_okt; [apply lit_ok; discriminate|]. eapply pbind_okt; [apply cand_read; assumption|].
    eapply pbind_okt; [apply line_end_ok|]. reflexivity.
Qed.
Lemma cand_fail : forall e s, prefixb (T "candidate:") s = false -> fails (p_cand_attr e) (97 :: 61 :: s).
Proof.
  intros e s H. unfold p_cand_attr. eapply fails_bind2; [apply (lit_ok (T "a=")); discriminate|].
  apply fails_bind1. unfold p_cand. apply fails_bind1. apply lit_go_fail. exact H.
Qed.

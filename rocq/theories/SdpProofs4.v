(** Every attribute is read back. *)
From Coq Require Import String Ascii Permutation.
From Verif Require Import Base BaseFacts PayModel PrioModel TextModel TextFacts SdpModel SdpSpec SdpProofs1 SdpProofs2 SdpProofs3.

Lemma plain_alnum : forall e c, plain c -> is_alnum e c = true.
Proof. intros e c H. unfold plain in H. unfold is_alnum, ascii_alnum, is_digit, is_upper, is_lower. lia. Qed.
Lemma name_ok : forall e v r, rid_ok v -> stop (is_alnum e) r -> name e (v ++ r) = POk true v r.
Proof.
  intros e v r [N H] S. apply take1_ok; [exact N| |exact S]. eapply Forall_impl; [|exact H]. intros c. apply plain_alnum.
Qed.

(** ** rid *)
Lemma rid_dir : forall (d : bool) X, choice [pmap (fun _ => true) (lit (T "send")); pmap (fun _ => false) (lit (T "recv"))]
  ((if d then T "send" else T "recv") ++ X) = POk true d X.
Proof. intros [] X; reflexivity. Qed.
Lemma rid_line : forall e id a d pts restr r, mattr_ok (MRid id a d pts restr) ->
  exists s, show_mattr e (MRid id a d pts restr) = Ok (T "a=rid:" ++ s ++ crlf) /\
    p_rid e (T "a=rid:" ++ s ++ crlf ++ r) = POk true (MRid id a d pts restr) r.
Proof.
  intros e id a d pts restr r (Hid & -> & -> & Hr & Hp).
  exists (id ++ T " " ++ (if d then T "send" else T "recv") ++ (if is_nil restr then [] else T " " ++ join (T ";") (map show_kv restr))).
  split.
  - unfold show_mattr. cbn [is_nil]. rewrite <- !app_assoc. cbn [app]. destruct restr; [reflexivity|].
    cbn [is_nil]. rewrite <- !app_assoc. reflexivity.
  - unfold p_rid. rewrite <- !app_assoc. eapply (attr_ok _ (T "rid")); [discriminate|].
    assert (R : exists b, optional (pdo _s <- token 32;
        pdo ps <- optional (pdo _p <- lit (T "pt="); pdo l <- sep_by1 p_ptype (token 44); pdo _o <- optional (token 59); ret l);
        pdo rs <- sep_by key_val (token 59); ret (ps, rs))
        ((if is_nil restr then [] else T " " ++ join (T ";") (map show_kv restr)) ++ crlf ++ r) =
        POk b (if is_nil restr then None else Some (None, restr)) (crlf ++ r)).
    { destruct restr as [|[k v] restr]; [exists false; reflexivity|]. exists true. cbn [is_nil]. rewrite <- !app_assoc.
      eapply optional_some. eapply pbind_okt; [reflexivity|]. eapply pbind_okf.
      - apply optional_none. apply bind_peek. specialize (Hp k v restr eq_refl).
        inversion Hr as [|? ? [Hk _] ?]; subst. destruct Hk as ((Nk & _) & _). cbn [fst] in *. destruct k as [|c k]; [congruence|].
        assert (Hc : (112 =? c) = false).
        { destruct (Z.eqb_spec 112 c) as [<-|]; [|reflexivity]. exfalso. apply Hp. exists k. reflexivity. }
        assert (J : exists t, join (T ";") (map show_kv ((c :: k, v) :: restr)) ++ crlf ++ r = c :: t).
        { cbn [map]. destruct (map show_kv restr); cbn [join show_kv fst app]; eexists; reflexivity. }
        change (lit (T "pt=") (join (T ";") (map show_kv ((c :: k, v) :: restr)) ++ crlf ++ r) = PErr false).
        destruct J as [t ->]. unfold lit. cbn [lit_go T map list_ascii_of_string]. change (Z.of_N (N_of_ascii "p")) with 112.
        rewrite Hc. reflexivity.
      - eapply pbind_okt; [|reflexivity]. unfold sep_by. eapply choice_hit. apply kvs_ok; [discriminate|exact Hr]. }
    destruct R as [b R].
    eapply pbind_okt; [apply name_ok; [exact Hid|reflexivity]|]. eapply pbind_okt; [reflexivity|].
    eapply pbind_okt; [apply rid_dir|]. eapply pbind_ok; [exact R|]. destruct restr; reflexivity.
Qed.

(** ** simulcast *)
Lemma layer_read : forall e l r, layer_ok l -> stop (is_alnum e) r ->
  (pdo t <- optional (token 126); pdo n <- name e; ret (n, negb (is_some t))) (show_layer l ++ r) = POk true (ly_rid l, ly_active l) r.
Proof.
  intros e [n a at'] r [Hn _] S. cbn [ly_rid ly_active] in *. unfold show_layer. cbn [ly_rid ly_active]. destruct a.
  - cbn [app]. eapply pbind_okf.
    + apply optional_none. destruct Hn as [N H]. destruct n as [|c n]; [congruence|]. inversion H; subst. unfold plain in *.
      cbn [app]. unfold token, satisfy. destruct (Z.eqb_spec 126 c); [lia|reflexivity].
    + eapply pbind_okt; [apply name_ok; assumption|]. reflexivity.
  - rewrite <- app_assoc. eapply pbind_okt; [eapply optional_some; reflexivity|].
    eapply pbind_okt; [apply name_ok; assumption|]. reflexivity.
Qed.
Lemma sep_single : forall A (p : parser A) sep s v r, p s = POk true v r -> (match r with [] => True | c :: _ => c <> sep end) ->
  sep_by1 p (token sep) s = POk true [v] r.
Proof.
  intros A p sep s v r H S. unfold sep_by1. eapply pbind_okt; [exact H|]. eapply pmap_ok with (f := cons v) (v := []).
  unfold many. destruct r as [|c r]; [reflexivity|]. cbn [many_go length].
  rewrite bind_peek; [reflexivity|]. unfold token, satisfy. destruct (Z.eqb_spec sep c); [congruence|reflexivity].
Qed.
Lemma simul_read : forall e d l r, d <> [] -> l <> [] -> Forall layer_ok l -> stop (is_alnum e) r ->
  (match r with [] => True | c :: _ => c <> 44 /\ c <> 59 end) ->
  p_simul1 e d (d ++ T " " ++ show_layers l ++ r) = POk true (map (fun l => [(ly_rid l, ly_active l)]) l) r.
Proof.
  intros e d l r Nd N H S Hr. unfold p_simul1. eapply pbind_okt; [apply lit_ok; exact Nd|]. eapply pbind_okt; [reflexivity|].
  unfold show_layers.
  pose proof (sep_by1_ok _ (sep_by1 (pdo t <- optional (token 126); pdo n <- name e; ret (n, negb (is_some t))) (token 44)) 59
    (map (fun l => (show_layer l, [(ly_rid l, ly_active l)])) l) r) as G. rewrite !map_map in G. apply G.
  - destruct l; [congruence|discriminate].
  - intros w v s Hi Hs. apply in_map_iff in Hi. destruct Hi as (x & Hx & Hi). inversion Hx; subst.
    assert (Hsep : stop (is_alnum e) s /\ (match s with [] => True | c :: _ => c <> 44 end)).
    { destruct Hs as [[t ->]| ->]; [split; [reflexivity|lia]|]. split; [exact S|]. destruct r; [exact I|apply Hr]. }
    destruct Hsep. apply sep_single; [|assumption]. apply layer_read; [|assumption]. rewrite Forall_forall in H. apply H. exact Hi.
  - destruct r; [exact I|apply Hr].
Qed.
Lemma to_simul_back : forall l, Forall layer_ok l -> to_simul (map (fun l => [(ly_rid l, ly_active l)]) l) = l.
Proof.
  intros l H. unfold to_simul. induction H as [|[n a at'] l [_ Ha] H IH]; [reflexivity|]. cbn [map filter_map ly_rid ly_active ly_attrs] in *.
  rewrite IH, Ha. reflexivity.
Qed.
Lemma simulcast_line : forall e s r, mattr_ok (MSimulcast s) -> sm_munged s = false ->
  exists t, show_mattr e (MSimulcast s) = Ok (T "a=simulcast:" ++ t ++ crlf) /\
    p_simulcast e (T "a=simulcast:" ++ t ++ crlf ++ r) = POk true (MSimulcast s) r.
Proof.
  intros e [sd rc mu] r (Hne & Hs & Hr) Hm. cbn [sm_send sm_recv sm_munged] in *. subst mu.
  exists ((if is_nil sd then [] else T "send " ++ show_layers sd)
          ++ (if is_nil rc then [] else (if is_nil sd then [] else T " ") ++ T "recv " ++ show_layers rc)).
  split.
  - unfold show_mattr. cbn [sm_send sm_recv sm_munged]. rewrite <- !app_assoc. destruct sd, rc; try reflexivity. exfalso; destruct Hne; congruence.
  - unfold p_simulcast. eapply (attr_ok _ (T "simulcast")); [discriminate|]. destruct sd as [|s0 sd].
    + destruct rc as [|r0 rc]; [exfalso; destruct Hne; congruence|]. set (L := r0 :: rc) in *. cbn [is_nil app].
      change (is_nil L) with false. cbv iota. rewrite <- app_assoc.
      rewrite choice_skip by reflexivity. eapply choice_hit.
      eapply pbind_okt; [apply (simul_read e (T "recv") L (crlf ++ r)); [discriminate|discriminate|exact Hr|reflexivity|split; discriminate]|].
      eapply pbind_okf; [apply optional_none; reflexivity|]. rewrite to_simul_back by exact Hr. reflexivity.
    + set (L := s0 :: sd) in *. change (is_nil L) with false. cbv iota. eapply choice_hit. destruct rc as [|r0 rc].
      * cbn [is_nil]. rewrite app_nil_r, <- app_assoc.
        eapply pbind_okt; [apply (simul_read e (T "send") L (crlf ++ r)); [discriminate|discriminate|exact Hs|reflexivity|split; discriminate]|].
        eapply pbind_okf; [apply optional_none; reflexivity|]. rewrite to_simul_back by exact Hs. reflexivity.
      * set (R := r0 :: rc) in *. change (is_nil R) with false. cbv iota. rewrite <- !app_assoc.
        eapply pbind_okt; [apply (simul_read e (T "send") L (T " " ++ T "recv " ++ show_layers R ++ crlf ++ r)); [discriminate|discriminate|exact Hs|reflexivity|split; discriminate]|].
        eapply pbind_ok.
        -- eapply optional_some. eapply pbind_okt; [reflexivity|].
           apply (simul_read e (T "recv") R (crlf ++ r)); [discriminate|discriminate|exact Hr|reflexivity|split; discriminate].
        -- cbv iota. rewrite to_simul_back by exact Hs. rewrite to_simul_back by exact Hr. reflexivity.
Qed.

(** ** alternatives that do not apply *)
Definition clear_of (names flags : list str) (s : str) : Prop :=
  (forall n, In n names -> prefixb n s = false) /\ (forall f, In f flags -> flagb f s = false).
Definition names1 : list str :=
  map T ["ice-ufrag:"; "ice-pwd:"; "ice-options:"; "fingerprint:"; "setup:"; "mid:"; "sctp-port:"; "max-message-size:";
         "sctp-init:"; "extmap:"; "msid:"; "rtcp:"]%string.
Definition flags1 : list str := map T ["recvonly"; "sendrecv"; "sendonly"; "inactive"]%string.
Definition names2 : list str :=
  map T ["candidate:"; "rtpmap:"; "rtcp-fb:"; "fmtp:"; "rid:"; "simulcast:"; "ssrc-group:"; "ssrc:"]%string.
Definition flags2 : list str := map T ["rtcp-mux"; "rtcp-mux-only"; "rtcp-rsize"; "end-of-candidates"]%string.

Lemma skip_attr : forall A B n (f : A -> B) (val : parser A) s, prefixb (n ++ [58]) s = false ->
  attempt (pmap f (attribute_line n val)) (97 :: 61 :: s) = PErr false.
Proof. intros. apply fails_attempt. apply fails_map. apply attr_fail. assumption. Qed.
Lemma skip_attr0 : forall A n (val : parser A) s, prefixb (n ++ [58]) s = false ->
  attempt (attribute_line n val) (97 :: 61 :: s) = PErr false.
Proof. intros. apply fails_attempt. apply attr_fail. assumption. Qed.
Lemma skip_flag : forall B n (f : unit -> B) s, flagb n s = false -> attempt (pmap f (attribute_flag n)) (97 :: 61 :: s) = PErr false.
Proof. intros. apply fails_attempt. apply fails_map. apply flag_fail. assumption. Qed.
Lemma skip_cand : forall B e (f : candidate -> B) s, prefixb (T "candidate:") s = false -> attempt (pmap f (p_cand_attr e)) (97 :: 61 :: s) = PErr false.
Proof. intros. apply fails_attempt. apply fails_map. apply cand_fail. assumption. Qed.
Lemma skip_fmtp : forall e s, prefixb (T "fmtp:") s = false -> attempt (p_fmtp e) (97 :: 61 :: s) = PErr false.
Proof.
  intros e s H. apply fails_attempt. exists false. unfold p_fmtp.
  rewrite choice_skip by (apply skip_attr0; exact H). rewrite choice_skip by (apply skip_attr0; exact H). reflexivity.
Qed.
(** skip the first alternative; [tac] shows that it is not the one *)
Ltac skip_with tac := rewrite choice_skip by (first
  [ apply skip_cand; tac | apply skip_fmtp; tac | unfold p_finger, p_setup; apply skip_attr; tac | apply skip_attr; tac
  | unfold p_rtpmap, p_rid, p_simulcast; apply skip_attr0; tac | apply skip_flag; tac ]).
Lemma dirs_fail : forall s, (forall f, In f flags1 -> flagb f s = false) ->
  attempt (choice [
    attempt (pmap (fun _ => MRecvOnly) (attribute_flag (T "recvonly")));
    attempt (pmap (fun _ => MSendRecv) (attribute_flag (T "sendrecv")));
    attempt (pmap (fun _ => MSendOnly) (attribute_flag (T "sendonly")));
    attempt (pmap (fun _ => MInactive) (attribute_flag (T "inactive")))]) (97 :: 61 :: s) = PErr false.
Proof.
  intros s H. apply fails_attempt. exists false. do 4 (skip_with ltac:(apply H; cbn [flags1 map In]; tauto)). reflexivity.
Qed.
Lemma alts1_fail : forall e s, clear_of names1 flags1 s -> choice (media_alts1 e) (97 :: 61 :: s) = PErr false.
Proof.
  intros e s [Hn Hf]. unfold media_alts1.
  do 10 (skip_with ltac:(apply Hn; cbn [names1 map In]; tauto)).
  rewrite choice_skip by (apply dirs_fail; exact Hf).
  do 2 (skip_with ltac:(apply Hn; cbn [names1 map In]; tauto)). reflexivity.
Qed.
Lemma alts2_fail : forall e s, clear_of names2 flags2 s -> choice (media_alts2 e) (97 :: 61 :: s) = PErr false.
Proof.
  intros e s [Hn Hf]. unfold media_alts2.
  do 12 (skip_with ltac:(first [apply Hn; cbn [names2 map In]; tauto | apply Hf; cbn [flags2 map In]; tauto])). reflexivity.
Qed.

(** Every attribute is read back: the table of attributes. *)
From Coq Require Import String Ascii Permutation.
From Verif Require Import Base BaseFacts PayModel PrioModel TextModel TextFacts SdpModel SdpSpec SdpProofs1 SdpProofs2 SdpProofs3 SdpProofs4.

(** ** unknown attributes *)
Lemma prefix_line : forall n v t, Forall (fun c => c <> 13) n -> prefixb n (v ++ 13 :: t) = true -> exists w, v = n ++ w.
Proof.
  induction n as [|x n IH]; intros v t F H; [exists v; reflexivity|]. inversion F; subst. destruct v as [|y v]; cbn [app prefixb] in H.
  - apply andb_prop in H. destruct H as [H _]. apply Z.eqb_eq in H. congruence.
  - apply andb_prop in H. destruct H as [H0 H]. apply Z.eqb_eq in H0. subst y. destruct (IH v t) as [w ->]; [assumption|exact H|].
    exists w. reflexivity.
Qed.
Lemma skipn_app0 : forall (n w : str), skipn (length n) (n ++ w) = w.
Proof. induction n as [|x n IH]; intro w; [reflexivity|apply IH]. Qed.
Lemma unknown_clear : forall names flags v r, unknown names flags v ->
  Forall (Forall (fun c => c <> 13)) names -> Forall (Forall (fun c => c <> 13)) flags -> clear_of names flags (v ++ crlf ++ r).
Proof.
  intros names flags v r ((Nv & Lv) & Hn & Hf) Fn Ff. rewrite Forall_forall in Fn, Ff. split.
  - intros n I. destruct (prefixb n (v ++ crlf ++ r)) eqn:E; [|reflexivity]. exfalso. apply (Hn n I). eapply prefix_line; [|exact E]. apply Fn. exact I.
  - intros f I. unfold flagb. destruct (prefixb f (v ++ crlf ++ r)) eqn:E; [|reflexivity]. cbn [andb].
    destruct (prefix_line f v ([10] ++ r) (Ff f I) E) as [w ->]. rewrite <- app_assoc, skipn_app0.
    destruct w as [|c w]; [exfalso; apply Hf; rewrite app_nil_r; exact I|]. rewrite Forall_forall in Lv.
    assert (Hc : c <> 13 /\ c <> 10) by (apply Lv; apply in_or_app; right; left; reflexivity).
    cbn [app ends]. destruct Hc as [H1 H2].
    destruct c as [|p|p]; try reflexivity. do 4 (destruct p as [p|p|]; try reflexivity); congruence.
Qed.
Definition no_cr (l : list str) : bool := forallb (forallb (fun c => negb (c =? 13))) l.
Lemma no_cr_ok : forall l, no_cr l = true -> Forall (Forall (fun c => c <> 13)) l.
Proof.
  intros l H. unfold no_cr in H. rewrite forallb_forall in H. apply Forall_forall. intros n I. specialize (H n I).
  rewrite forallb_forall in H. apply Forall_forall. intros c J. specialize (H c J). lia.
Qed.
Lemma clear_sub : forall n1 f1 n2 f2 s, (forall n, In n n1 -> In n n2) -> (forall f, In f f1 -> In f f2) -> clear_of n2 f2 s -> clear_of n1 f1 s.
Proof. intros n1 f1 n2 f2 s H1 H2 [A B]. split; auto. Qed.

(** ** media attributes *)
Lemma from1 : forall e s c a r, choice (media_alts1 e) s = POk c a r -> p_mattr e s = POk c a r.
Proof. intros. unfold p_mattr. apply choice_hit. apply attempt_ok. assumption. Qed.
Definition clearb (names flags : list str) (s : str) : bool :=
  forallb (fun n => negb (prefixb n s)) names && forallb (fun f => negb (flagb f s)) flags.
Lemma clearb_ok : forall n f s, clearb n f s = true -> clear_of n f s.
Proof.
  intros n f s H. unfold clearb in H. apply andb_prop in H. destruct H as [A B]. rewrite forallb_forall in A, B. split.
  - intros x I. specialize (A x I). destruct (prefixb x s); [discriminate|reflexivity].
  - intros x I. specialize (B x I). destruct (flagb x s); [discriminate|reflexivity].
Qed.
Lemma from2 : forall e s c a r, clear_of names1 flags1 s -> choice (media_alts2 e) (97 :: 61 :: s) = POk c a r ->
  p_mattr e (97 :: 61 :: s) = POk c a r.
Proof.
  intros e s c a r H E. unfold p_mattr. rewrite choice_skip.
  - apply choice_hit. apply attempt_ok. exact E.
  - apply fails_attempt. exists false. apply alts1_fail. exact H.
Qed.
Ltac skip_r := skip_with ltac:(reflexivity).
Ltac hit := eapply choice_hit; eapply attempt_ok.
Ltac at_a n := eapply (attr_ok _ (T n)); [discriminate|].

Definition reads_as (e : env) (a a' : mattr) (s : str) : Prop :=
  show_mattr e a = Ok s /\ (exists t, s = 97 :: 61 :: t) /\ forall r, p_mattr e (s ++ r) = POk true a' r.
Lemma media_read : forall e a, env_ok e -> mattr_ok a -> silent a = false ->
  exists s a', mattr_reads e a a' /\ reads_as e a a' s.
Proof.
  intros e a He Ha Hs. destruct a as [v|v|v|v|v|v|v|v|v|v|id x| | | | |s t| | | |c| |pt c k ch|pt v|pt l|id ac d pts restr|sm|sem l|ss at' v|v];
    cbn [mattr_ok mattr_reads] in *.
  (* rtcp *)
  - do 2 eexists. split; [reflexivity|]. split; [reflexivity|]. split; [eexists; reflexivity|]. intro r. rewrite <- !app_assoc.
    apply from1. unfold media_alts1. do 10 skip_r. rewrite choice_skip by (apply (dirs_fail (T "rtcp:" ++ v ++ crlf ++ r)); cbn [flags1 map In]; intuition (subst; reflexivity)).
    skip_r. hit. eapply pmap_ok. at_a "rtcp"%string. apply any_ok. exact Ha.
  (* ice-ufrag, pwd, options *)
  - do 2 eexists. split; [reflexivity|]. split; [reflexivity|]. split; [eexists; reflexivity|]. intro r. rewrite <- !app_assoc.
    apply from1. unfold media_alts1. hit. eapply pmap_ok. at_a "ice-ufrag"%string. apply any_ok. exact Ha.
  - do 2 eexists. split; [reflexivity|]. split; [reflexivity|]. split; [eexists; reflexivity|]. intro r. rewrite <- !app_assoc.
    apply from1. unfold media_alts1. skip_r. hit. eapply pmap_ok. at_a "ice-pwd"%string. apply any_ok. exact Ha.
  - do 2 eexists. split; [reflexivity|]. split; [reflexivity|]. split; [eexists; reflexivity|]. intro r. rewrite <- !app_assoc.
    apply from1. unfold media_alts1. do 2 skip_r. hit. eapply pmap_ok. at_a "ice-options"%string. apply any_ok. exact Ha.
  (* fingerprint *)
  - destruct (finger_ok v [] Ha) as (b & Eb & _). do 2 eexists. split; [reflexivity|]. unfold reads_as. cbn [show_mattr]. rewrite Eb. cbn [bind].
    split; [reflexivity|]. split; [eexists; reflexivity|]. intro r. rewrite <- !app_assoc. destruct (finger_ok v r Ha) as (b' & Eb' & P).
    rewrite Eb in Eb'. injection Eb' as <-. apply from1. unfold media_alts1. do 3 skip_r. hit. eapply pmap_ok. exact P.
  (* setup *)
  - do 2 eexists. split; [reflexivity|]. split; [reflexivity|]. split; [eexists; reflexivity|]. intro r. rewrite <- !app_assoc.
    apply from1. unfold media_alts1. do 4 skip_r. hit. eapply pmap_ok. apply setup_ok.
  (* mid *)
  - do 2 eexists. split; [reflexivity|]. split; [reflexivity|]. split; [eexists; reflexivity|]. intro r. rewrite <- !app_assoc.
    apply from1. unfold media_alts1. do 5 skip_r. hit. rewrite <- (mid_back v Ha) at 2.
    eapply (pmap_ok _ _ (fun m => MMid (mid_from m))). at_a "mid"%string. apply any_ok. apply word_line. apply mid_word. exact Ha.
  (* sctp-port, max-message-size, sctp-init *)
  - do 2 eexists. split; [reflexivity|]. split; [reflexivity|]. split; [eexists; reflexivity|]. intro r. rewrite <- !app_assoc.
    apply from1. unfold media_alts1. do 6 skip_r. hit. eapply pmap_ok. at_a "sctp-port"%string. apply num_ok; [exact Ha|reflexivity].
  - do 2 eexists. split; [reflexivity|]. split; [reflexivity|]. split; [eexists; reflexivity|]. intro r. rewrite <- !app_assoc.
    apply from1. unfold media_alts1. do 7 skip_r. hit. eapply pmap_ok. at_a "max-message-size"%string. apply num_ok; [exact Ha|reflexivity].
  - do 2 eexists. split; [reflexivity|]. split; [reflexivity|]. split; [eexists; reflexivity|]. intro r. rewrite <- !app_assoc.
    apply from1. unfold media_alts1. do 8 skip_r. hit. eapply pmap_ok. at_a "sctp-init"%string. apply any_ok. exact Ha.
  (* extmap *)
  - destruct Ha as [Hid Hx]. unfold u8 in Hid. do 2 eexists. split; [reflexivity|]. split; [reflexivity|]. split; [eexists; reflexivity|]. intro r. rewrite <- !app_assoc.
    apply from1. unfold media_alts1. do 9 skip_r. hit. at_a "extmap"%string.
    destruct (dec_chars id (fun c => negb (c =? 47) && negb (c =? 32))) as [N F]; [lia|intros; lia|].
    eapply pbind_okt; [eapply pand_ok; [apply take1_ok; [exact N|exact F|reflexivity]|apply read_dec; exact Hid]|].
    eapply pbind_okf; [apply optional_none; reflexivity|]. eapply pbind_okt; [reflexivity|].
    eapply pbind_okt; [apply not_sp_ok; [apply ext_word; exact Hx|reflexivity]|].
    eapply pbind_okf; [apply optional_none; reflexivity|]. rewrite ext_back by exact Hx. reflexivity.
  (* directions *)
  - do 2 eexists. split; [reflexivity|]. split; [reflexivity|]. split; [eexists; reflexivity|]. intro r. rewrite <- !app_assoc.
    apply from1. unfold media_alts1. do 10 skip_r. hit. hit. eapply (pmap_ok _ _ (fun _ => MRecvOnly) _ _ _ tt). apply (flag_ok (T "recvonly")). discriminate.
  - do 2 eexists. split; [reflexivity|]. split; [reflexivity|]. split; [eexists; reflexivity|]. intro r. rewrite <- !app_assoc.
    apply from1. unfold media_alts1. do 10 skip_r. hit. skip_r. hit. eapply (pmap_ok _ _ (fun _ => MSendRecv) _ _ _ tt). apply (flag_ok (T "sendrecv")). discriminate.
  - do 2 eexists. split; [reflexivity|]. split; [reflexivity|]. split; [eexists; reflexivity|]. intro r. rewrite <- !app_assoc.
    apply from1. unfold media_alts1. do 10 skip_r. hit. do 2 skip_r. hit. eapply (pmap_ok _ _ (fun _ => MSendOnly) _ _ _ tt). apply (flag_ok (T "sendonly")). discriminate.
  - do 2 eexists. split; [reflexivity|]. split; [reflexivity|]. split; [eexists; reflexivity|]. intro r. rewrite <- !app_assoc.
    apply from1. unfold media_alts1. do 10 skip_r. hit. do 3 skip_r. hit. eapply (pmap_ok _ _ (fun _ => MInactive) _ _ _ tt). apply (flag_ok (T "inactive")). discriminate.
  (* msid *)
  - destruct Ha as [H1 H2]. do 2 eexists. split; [reflexivity|]. split; [reflexivity|]. split; [eexists; reflexivity|]. intro r. rewrite <- !app_assoc.
    apply from1. unfold media_alts1. do 10 skip_r. rewrite choice_skip by (apply (dirs_fail (T "msid:" ++ s ++ T " " ++ t ++ crlf ++ r)); cbn [flags1 map In]; intuition (subst; reflexivity)).
    hit. at_a "msid"%string. eapply pbind_okt; [apply not_sp_ok; [exact H1|reflexivity]|]. eapply pbind_okt; [reflexivity|].
    eapply pbind_okt; [apply any_ok; exact H2|]. reflexivity.
  (* rtcp-mux, rtcp-mux-only, rtcp-rsize *)
  - do 2 eexists. split; [reflexivity|]. split; [reflexivity|]. split; [eexists; reflexivity|]. intro r. rewrite <- !app_assoc.
    apply (from2 e (T "rtcp-mux" ++ crlf ++ r)); [apply clearb_ok; reflexivity|]. unfold media_alts2.
    hit. eapply (pmap_ok _ _ (fun _ => MRtcpMux) _ _ _ tt). apply (flag_ok (T "rtcp-mux")). discriminate.
  - do 2 eexists. split; [reflexivity|]. split; [reflexivity|]. split; [eexists; reflexivity|]. intro r. rewrite <- !app_assoc.
    apply (from2 e (T "rtcp-mux-only" ++ crlf ++ r)); [apply clearb_ok; reflexivity|]. unfold media_alts2. skip_r.
    hit. eapply (pmap_ok _ _ (fun _ => MRtcpMuxOnly) _ _ _ tt). apply (flag_ok (T "rtcp-mux-only")). discriminate.
  - do 2 eexists. split; [reflexivity|]. split; [reflexivity|]. split; [eexists; reflexivity|]. intro r. rewrite <- !app_assoc.
    apply (from2 e (T "rtcp-rsize" ++ crlf ++ r)); [apply clearb_ok; reflexivity|]. unfold media_alts2. do 2 skip_r.
    hit. eapply (pmap_ok _ _ (fun _ => MRtcpRsize) _ _ _ tt). apply (flag_ok (T "rtcp-rsize")). discriminate.
  (* candidate *)
  - destruct (cand_full e c He Ha) as (s & c' & Es & Pre & Seen & P). exists (97 :: 61 :: s ++ crlf), (MCandidate c').
    split; [eauto|]. unfold reads_as. cbn [show_mattr]. rewrite Es. cbn [bind].
    split; [reflexivity|]. split; [eexists; reflexivity|]. intro r. cbn [app]. rewrite <- app_assoc.
    assert (K : exists t, s = T "candidate:" ++ t).
    { clear - Pre. do 10 (destruct s as [|? s]; [discriminate|cbn [prefixb T map list_ascii_of_string] in Pre; apply andb_prop in Pre; destruct Pre as [H Pre]; apply Z.eqb_eq in H; subst]).
      exists s. reflexivity. }
    destruct K as [t ->].
    apply from2; [apply clearb_ok; reflexivity|]. unfold media_alts2. do 3 skip_r. hit. eapply pmap_ok. apply P.
  (* end-of-candidates *)
  - do 2 eexists. split; [reflexivity|]. split; [reflexivity|]. split; [eexists; reflexivity|]. intro r. rewrite <- !app_assoc.
    apply (from2 e (T "end-of-candidates" ++ crlf ++ r)); [apply clearb_ok; reflexivity|]. unfold media_alts2. do 4 skip_r.
    hit. eapply (pmap_ok _ _ (fun _ => MEndOfCandidates) _ _ _ tt). apply (flag_ok (T "end-of-candidates")). discriminate.
  (* rtpmap *)
  - do 2 eexists. split; [reflexivity|]. split; [reflexivity|]. split; [eexists; reflexivity|]. intro r. rewrite <- !app_assoc.
    match goal with |- p_mattr e (T "a=rtpmap:" ++ ?x) = _ => apply (from2 e (T "rtpmap:" ++ x)) end; [apply clearb_ok; reflexivity|].
    unfold media_alts2. do 5 skip_r. hit. apply rtpmap_ok. exact Ha.
  (* rtcp-fb *)
  - destruct Ha as [H1 H2]. do 2 eexists. split; [reflexivity|]. split; [reflexivity|]. split; [eexists; reflexivity|]. intro r. rewrite <- !app_assoc.
    match goal with |- p_mattr e (T "a=rtcp-fb:" ++ ?x) = _ => apply (from2 e (T "rtcp-fb:" ++ x)) end; [apply clearb_ok; reflexivity|].
    unfold media_alts2. do 6 skip_r. hit. at_a "rtcp-fb"%string.
    eapply pbind_okt; [apply pt_read; [exact H1|reflexivity]|]. eapply pbind_okt; [reflexivity|]. eapply pbind_okt; [apply any_ok; exact H2|]. reflexivity.
  (* fmtp *)
  - destruct Ha as [H1 H2]. destruct l as [|f0 l]; [discriminate|]. set (L := f0 :: l) in *.
    exists (T "a=fmtp:" ++ dec pt ++ T " " ++ join (T ";") (map show_fparam L) ++ crlf), (MFmtp pt (parse_pairs e (flat_map pairs L))).
    split; [eexists; split; [reflexivity|apply parse_pairs_ok; assumption]|].
    split; [reflexivity|]. split; [eexists; reflexivity|]. intro r. rewrite <- !app_assoc.
    match goal with |- p_mattr e (T "a=fmtp:" ++ ?x) = _ => apply (from2 e (T "fmtp:" ++ x)) end; [apply clearb_ok; reflexivity|].
    unfold media_alts2. do 7 skip_r. hit. apply fmtp_line; [exact H1|exact H2|discriminate].
  (* rid *)
  - destruct (rid_line e id ac d pts restr [] Ha) as (s & E & _). do 2 eexists. split; [reflexivity|]. split; [exact E|].
    split; [eexists; reflexivity|]. intro r. rewrite <- !app_assoc. destruct (rid_line e id ac d pts restr r Ha) as (s' & E' & P).
    rewrite E in E'. assert (s = s').
    { assert (E2 : T "a=rid:" ++ s ++ crlf = T "a=rid:" ++ s' ++ crlf) by congruence. apply app_inv_head in E2. apply app_inv_tail in E2. exact E2. }
    subst s'. match goal with |- p_mattr e (T "a=rid:" ++ ?x) = _ => apply (from2 e (T "rid:" ++ x)) end; [apply clearb_ok; reflexivity|].
    unfold media_alts2. do 8 skip_r. hit. exact P.
  (* simulcast *)
  - destruct (simulcast_line e sm [] Ha Hs) as (s & E & _). do 2 eexists. split; [reflexivity|]. split; [exact E|].
    split; [eexists; reflexivity|]. intro r. rewrite <- !app_assoc. destruct (simulcast_line e sm r Ha Hs) as (s' & E' & P).
    rewrite E in E'. assert (s = s').
    { assert (E2 : T "a=simulcast:" ++ s ++ crlf = T "a=simulcast:" ++ s' ++ crlf) by congruence. apply app_inv_head in E2. apply app_inv_tail in E2. exact E2. }
    subst s'. match goal with |- p_mattr e (T "a=simulcast:" ++ ?x) = _ => apply (from2 e (T "simulcast:" ++ x)) end; [apply clearb_ok; reflexivity|].
    unfold media_alts2. do 9 skip_r. hit. exact P.
  (* ssrc-group *)
  - destruct Ha as (H1 & H2 & H3). do 2 eexists. split; [reflexivity|]. split; [reflexivity|]. split; [eexists; reflexivity|]. intro r.
    replace (is_nil l) with false by (destruct l; [congruence|reflexivity]). rewrite <- !app_assoc.
    match goal with |- p_mattr e (T "a=ssrc-group:" ++ ?x) = _ => apply (from2 e (T "ssrc-group:" ++ x)) end; [apply clearb_ok; reflexivity|].
    unfold media_alts2. do 10 skip_r. hit. at_a "ssrc-group"%string.
    eapply pbind_okt; [apply not_sp_ok; [exact H1|reflexivity]|]. eapply pbind_okt; [reflexivity|].
    eapply pbind_okt; [|reflexivity]. apply (sep_list _ (pand not_sp read_u32) 32 dec); [exact H2| |discriminate].
    intros x s Hx Hs'. rewrite Forall_forall in H3. specialize (H3 x Hx). unfold u32 in H3. apply num_ok; [exact H3|].
    destruct Hs' as [[t ->]| ->]; reflexivity.
  (* ssrc *)
  - destruct Ha as (H1 & H2 & H3 & H4). do 2 eexists. split; [reflexivity|]. split; [reflexivity|]. split; [eexists; reflexivity|]. intro r. rewrite <- !app_assoc.
    match goal with |- p_mattr e (T "a=ssrc:" ++ ?x) = _ => apply (from2 e (T "ssrc:" ++ x)) end; [apply clearb_ok; reflexivity|].
    unfold media_alts2. do 11 skip_r. hit. at_a "ssrc"%string.
    eapply pbind_okt; [apply num_ok; [exact H1|reflexivity]|]. eapply pbind_okt; [reflexivity|].
    eapply pbind_okt; [apply take1_ok; [exact H2| |reflexivity]|].
    + eapply Forall_impl; [|exact H3]. cbn. intros; lia.
    + eapply pbind_okt; [reflexivity|]. eapply pbind_okt; [apply any_ok; exact H4|]. reflexivity.
  (* unknown *)
  - do 2 eexists. split; [reflexivity|]. split; [reflexivity|]. split; [eexists; reflexivity|]. intro r. rewrite <- !app_assoc.
    pose proof (unknown_clear media_names media_flags v r Ha (no_cr_ok media_names eq_refl) (no_cr_ok media_flags eq_refl)) as C.
    change (T "a=" ++ v ++ crlf ++ r) with (97 :: 61 :: v ++ crlf ++ r). unfold p_mattr.
    rewrite choice_skip. 2:{ apply fails_attempt. exists false. apply alts1_fail. eapply clear_sub; [| |exact C]; cbn [names1 flags1 media_names media_flags map In]; tauto. }
    rewrite choice_skip. 2:{ apply fails_attempt. exists false. apply alts2_fail. eapply clear_sub; [| |exact C]; cbn [names2 flags2 media_names media_flags map In]; tauto. }
    eapply choice_hit. eapply pmap_ok. eapply typed_ok. apply any_ok. apply Ha.
Qed.

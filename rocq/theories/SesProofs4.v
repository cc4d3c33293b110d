(** Packing keeps what a packet can carry; what a peer reads of the packets that leave. *)
From Coq Require Import Permutation.
From Verif Require Import Base BaseFacts TwccModel TwccSpec RtcpModel RtcpSpec RtcpNoPanic RtcpProofs RtcpRound RtcpProps RtcpPackProofs RtcpPackProps.

Definition loose (p : rtcp) : Prop :=
  match p with
  | Sr i r => sinfo_ok i /\ upto31 r /\ Forall rr_ok r
  | Rr s r => u32 s /\ upto31 r /\ Forall rr_ok r
  | Xr s b => u32 s /\ Forall xblock_ok b
  | Sdes r => upto31 r /\ Forall sdes_ok r
  | Bye r => upto31 r /\ Forall u32 r
  | Nack a s r => u32 a /\ u32 s /\ upto31 r /\ Forall nentry_ok r
  | Pli a s => u32 a /\ u32 s
  | Fir a r => u32 a /\ upto31 r /\ Forall fentry_ok r
  | Tw t => twcc_ok t /\ large_runs_last t
  | Remb a b s => u32 a /\ 1 <= b <= REMB_MAX /\ Forall u32 s /\ zlen s <= 255
  | App a m pl => u32 a /\ u32 m /\ bytes_ok pl /\ ~ looks_like_remb m pl
  end.
Definition bare (p : rtcp) : Prop := match p with Bye [] | Nack _ _ [] | Fir _ [] => True | _ => False end.
Lemma carried_loose p : carried p <-> words p <= U16 /\ loose p /\ ~ bare p.
Proof.
  assert (forall A (y : A) l, y :: l <> []) as N by (intros; discriminate).
  destruct p as [i r|s r|s b|[|x r]|[|x r]|a s [|x r]|a s|a [|x r]|t|a b s|a m pl]; unfold carried; cbn [loose bare]; split; intros (H1 & H2);
    repeat match goal with H : _ /\ _ |- _ => destruct H end; repeat match goal with |- _ /\ _ => split end; auto; try congruence; try tauto; try (intro; congruence).
Qed.
Lemma loose_lists p : loose p -> lists_ok p.
Proof.
  destruct p as [i r|s r|s b|r|r|a s r|a s|a r|t|a b s|a m pl]; cbn [loose lists_ok]; try tauto.
  intros [(_ & H & _) _]. eapply Forall_impl; [|exact H]. intros [? ?|? ?|? ?]; cbn; lia.
Qed.

Lemma append_forall {A} (P : A -> Prop) wsz a b w x y n : append wsz a b w = (x, y, n) -> upto31 a -> upto31 b ->
  Forall P a -> Forall P b -> (upto31 x /\ Forall P x) /\ (upto31 y /\ Forall P y).
Proof.
  unfold append. intros E L1 L2 F1 F2.
  assert (forall r b w, (ntake wsz r b w <= r)%nat) as NT.
  { induction r as [|r IH]; intros b0 w0; cbn [ntake]; [lia|]. destruct b0 as [|y0 b0]; [lia|]. destruct (_ <? _); [lia|]. specialize (IH b0 (w0 - wsz y0)). lia. }
  specialize (NT (31 - length a)%nat b w). cbv zeta in E. remember (ntake wsz (31 - length a) b w) as k eqn:Ek. clear Ek. injection E as <- <- <-.
  unfold upto31 in *. rewrite <- (firstn_skipn k b) in F2. apply Forall_app in F2 as [F2 F3]. split; split.
  - rewrite app_length, firstn_length. lia.
  - apply Forall_app. auto.
  - rewrite skipn_length. lia.
  - exact F3.
Qed.
Lemma merge_loose a b w a' b' d : merge a b w = (a', b', d) -> loose a -> loose b -> loose a' /\ loose b'.
Proof.
  intros M HA HB. destruct a as [i r|s r|s bl|r|r|a s r|a s|a r|t|a br s|a m pl]; cbn [merge] in M;
    try (injection M as <- <- <-; split; assumption);
    destruct b as [i2 r2|s2 r2|s2 bl2|r2|r2|a2 s2 r2|a2 s2|a2 r2|t2|a2 br2 s2|a2 m2 pl2];
    try (injection M as <- <- <-; split; assumption);
    try (destruct (s =? s2); [|injection M as <- <- <-; split; assumption]);
    match type of M with context [append ?f ?x ?y ?z] => destruct (append f x y z) as [[xx yy] nn] eqn:E end;
    injection M as <- <- <-; cbn [loose] in *;
    match type of E with append _ ?x ?y _ = _ =>
      match goal with H1 : context [@Forall _ ?p x] |- _ => destruct (append_forall p _ _ _ _ _ _ _ E ltac:(tauto) ltac:(tauto) ltac:(tauto) ltac:(tauto)) as [[? ?] [? ?]] end end; tauto.
Qed.

Section K.
Variable K : rtcp -> Prop.
Hypothesis KM : forall a b w a' b' d, merge a b w = (a', b', d) -> K a -> K b -> K a' /\ K b'.
Lemma pack_into_keeps rest : forall cap a any brk a' rest' any', K a -> Forall K rest -> pack_into cap a rest any = (brk, a', rest', any') -> K a' /\ Forall K rest'.
Proof.
  induction rest as [|b bs IH]; intros cap a any brk a' rest' any' HA HR E; cbn [pack_into] in E; [injection E as <- <- <- <-; auto|].
  destruct (is_full a || is_empty a); [injection E as <- <- <- <-; auto|]. destruct (cap <? words a); [injection E as <- <- <- <-; auto|].
  destruct (merge a b (cap - words a)) as [[a1 b1] did] eqn:EM. destruct (pack_into cap a1 bs (any || did)) as [[[brk1 a2] bs1] any1] eqn:EP.
  injection E as <- <- <- <-. inversion HR; subst. destruct (KM _ _ _ _ _ _ EM HA ltac:(assumption)) as [K1 K2].
  destruct (IH _ _ _ _ _ _ _ K1 ltac:(eassumption) EP) as [K3 K4]. split; [exact K3|]. constructor; assumption.
Qed.
Lemma pack_loop_keeps fuel : forall cap pre a rest l, Forall K pre -> K a -> Forall K rest -> pack_loop fuel cap pre a rest = Ok l -> Forall K l.
Proof.
  induction fuel as [|f IH]; intros cap pre a rest l HP HA HR E; cbn [pack_loop] in E; [discriminate|].
  destruct rest as [|b bs]; [injection E as <-; apply Forall_app; auto|].
  destruct (cap <? words a); [injection E as <-; apply Forall_app; auto|].
  destruct (pack_into cap a (b :: bs) false) as [[[brk a'] rest'] any] eqn:EP. destruct (pack_into_keeps _ _ _ _ _ _ _ _ HA HR EP) as [K1 K2].
  destruct brk; [injection E as <-; apply Forall_app; auto|]. destruct any; [exact (IH _ _ _ _ _ HP K1 K2 E)|].
  destruct (cap <? words a'); [discriminate|]. destruct rest' as [|b' bs']; [discriminate|]. inversion K2; subst.
  eapply IH; [| | |exact E]; auto. apply Forall_app. auto.
Qed.
Lemma pack_keeps q cap l : Forall K q -> pack q cap = Ok l -> Forall K l.
Proof.
  intros HK E. destruct q as [|p1 [|p2 q]]; cbn [pack] in E; [injection E as <-; exact HK|injection E as <-; exact HK|].
  pose proof (Permutation_Forall (sort_perm (p1 :: p2 :: q)) HK) as HS. destruct (sort (p1 :: p2 :: q)) as [|a rest]; [discriminate|].
  inversion HS; subst. destruct (pack_loop _ cap [] a rest) as [l0| |] eqn:EL; cbn [bind] in E; try discriminate. injection E as <-.
  apply Forall_filter. eapply pack_loop_keeps; [| | |exact EL]; auto.
Qed.
End K.

Lemma emit_all q : forall left bs out rest, emit left q = Ok (bs, out, rest) -> q = out ++ rest /\ Forall (fun p => 4 * words p <= left) out.
Proof.
  induction q as [|p q IH]; intros left bs out rest E; cbn [emit] in E; [injection E as <- <- <-; split; [reflexivity|constructor]|].
  destruct (left <? words p * 4) eqn:EL; [injection E as <- <- <-; split; [reflexivity|constructor]|].
  destruct (write p) as [[b n]| |]; cbn [bind] in E; try discriminate. destruct (left <? zlen b); [discriminate|]. destruct (negb _); [discriminate|].
  destruct (emit (left - words p * 4) q) as [[[b' o'] r']| |] eqn:EE; cbn [bind] in E; try discriminate. injection E as <- <- <-.
  destruct (IH _ _ _ _ EE) as [-> F]. split; [reflexivity|]. constructor; [lia|]. eapply Forall_impl; [|exact F]. cbv beta. pose proof (words_pos p). lia.
Qed.

(** What is queued and can be carried, is carried. *)
Definition sound (p : rtcp) : Prop := loose p /\ ~ bare p.
Lemma sound_lists q : Forall sound q -> Forall lists_ok q.
Proof. intro H. eapply Forall_impl; [|exact H]. intros p [L _]. apply loose_lists, L. Qed.
Lemma carried_sound q : Forall carried q -> Forall sound q.
Proof. intro H. eapply Forall_impl; [|exact H]. intros p C. apply carried_loose in C. split; apply C. Qed.
Lemma write_packet_keeps q total bs out rest : Forall sound q -> 0 <= total <= 4 * U16 -> write_packet q total = Ok (bs, out, rest) ->
  Forall sound rest /\ Forall carried out /\ read_packet bs = Ok (map as_read out) /\
  Permutation (flat_map items q) (flat_map items out ++ flat_map items rest) /\ write_all out = Ok bs.
Proof.
  intros S T E. pose proof (sound_lists _ S) as L. destruct (C20_pack q total L ltac:(lia)) as (bs' & out' & rest' & E' & PM & W & _).
  rewrite E in E'. injection E' as <- <- <-.
  assert (Forall sound (out ++ rest) /\ Forall (fun p => 4 * words p <= total) out) as [S1 S2].
  { unfold write_packet in E. destruct q as [|p q]; [injection E as <- <- <-; split; constructor|].
    destruct (pack (p :: q) (total / 4)) as [l| |] eqn:EP; cbn [bind] in E; try discriminate. destruct (emit_all _ _ _ _ _ E) as [EQ F].
    split; [|exact F]. rewrite <- EQ.
    destruct (pack_spec (p :: q) (total / 4) L) as (l' & EP' & _ & _ & _ & _ & _ & O1 & O2). rewrite EP in EP'. injection EP' as <-.
    destruct q as [|p2 q]; [rewrite O1 by reflexivity; exact S|]. specialize (O2 ltac:(cbn; lia)).
    assert (Forall loose l) as FL.
    { eapply (pack_keeps loose); [exact merge_loose| |exact EP]. eapply Forall_impl; [|exact S]. intros ? []; assumption. }
    rewrite Forall_forall in *. intros x Hx. split; [apply FL, Hx|]. specialize (O2 _ Hx). intro B.
    destruct x as [? ?|? ?|? ?|?|[|? ?]|? ? [|? ?]|? ?|? [|? ?]|?|? ? ?|? ? ?]; cbn [bare is_empty nilb] in *; try contradiction; discriminate. }
  apply Forall_app in S1 as [S0 S1].
  assert (Forall carried out) as C.
  { rewrite Forall_forall in *. intros x Hx. apply carried_loose. specialize (S2 _ Hx). cbv beta in S2. destruct (S0 _ Hx). split; [lia|split; assumption]. }
  split; [exact S1|]. split; [exact C|]. split; [eapply C20_peer_reads; [exact L| |exact E|exact C]; lia|]. split; [exact PM|exact W].
Qed.
(** A queue of which every packet fits gets shorter. *)
Lemma write_packet_progress q total bs out rest : Forall sound q -> 0 <= total <= 4 * U16 -> write_packet q total = Ok (bs, out, rest) ->
  Forall (fun p => 4 * words p <= total) q -> Forall (fun p => 4 * words p <= total) rest /\ (rest = [] \/ (length rest < length q)%nat).
Proof.
  intros S T E W. pose proof (sound_lists _ S) as L. destruct q as [|p q]; [injection E as <- <- <-; auto|].
  unfold write_packet in E. destruct (pack_spec (p :: q) (total / 4) L) as (l & EP & _ & LL & _ & CW & LN & _). rewrite EP in E. cbn [bind] in E.
  destruct (emit_spec l total LL ltac:(lia)) as (bs' & out' & rest' & E' & EQ & EW & LW & HH). rewrite E in E'. injection E' as <- <- <-.
  assert (Forall (fun p => 4 * words p <= total) l) as WL.
  { eapply Forall_impl; [|apply CW]; [cbn beta; intros; dlia|]. eapply Forall_impl; [|exact W]. cbn beta. intros; dlia. }
  rewrite EQ in WL. apply Forall_app in WL as [_ WL]. split; [exact WL|]. destruct rest as [|x r]; [left; reflexivity|right].
  rewrite EQ, app_length in LN. destruct out as [|o out]; [|cbn [length] in *; lia]. exfalso. specialize (HH _ _ eq_refl). inversion WL; subst.
  cbn in EW. injection EW as <-. rewrite zlen_nil in HH. lia.
Qed.

(** Parsing RTCP never panics. *)
From Verif Require Import Base BaseFacts TwccModel RtcpModel.

Lemma rdu32_some b i : bytes_ok b -> 0 <= i -> i + 4 <= zlen b -> exists v, rdu32 b i = Ok v /\ 0 <= v < U32.
Proof.
  intros Hb H1 H2. unfold rdu32.
  destruct (idx_ok b i) as (a & E & _); [lia|]; rewrite E; pose proof (idx_byte _ _ _ Hb E); cbn [bind].
  destruct (idx_ok b (i + 1)) as (a1 & E1 & _); [lia|]; rewrite E1; pose proof (idx_byte _ _ _ Hb E1); cbn [bind].
  destruct (idx_ok b (i + 2)) as (a2 & E2 & _); [lia|]; rewrite E2; pose proof (idx_byte _ _ _ Hb E2); cbn [bind].
  destruct (idx_ok b (i + 3)) as (a3 & E3 & _); [lia|]; rewrite E3; pose proof (idx_byte _ _ _ Hb E3); cbn [bind].
  eexists; split; [reflexivity|]. apply rd32_range; assumption.
Qed.
Lemma rdu24_some b i : bytes_ok b -> 0 <= i -> i + 3 <= zlen b -> exists v, rdu24 b i = Ok v /\ 0 <= v < 16777216.
Proof.
  intros Hb H1 H2. unfold rdu24.
  destruct (idx_ok b i) as (a & E & _); [lia|]; rewrite E; pose proof (idx_byte _ _ _ Hb E); cbn [bind].
  destruct (idx_ok b (i + 1)) as (a1 & E1 & _); [lia|]; rewrite E1; pose proof (idx_byte _ _ _ Hb E1); cbn [bind].
  destruct (idx_ok b (i + 2)) as (a2 & E2 & _); [lia|]; rewrite E2; pose proof (idx_byte _ _ _ Hb E2); cbn [bind].
  eexists; split; [reflexivity|]. apply rd24_range; assumption.
Qed.
Lemma rdu16_some b i : bytes_ok b -> 0 <= i -> i + 2 <= zlen b -> exists v, rdu16 b i = Ok v /\ 0 <= v < U16.
Proof.
  intros Hb H1 H2. unfold rdu16.
  destruct (idx_ok b i) as (a & E & _); [lia|]; rewrite E; pose proof (idx_byte _ _ _ Hb E); cbn [bind].
  destruct (idx_ok b (i + 1)) as (a1 & E1 & _); [lia|]; rewrite E1; pose proof (idx_byte _ _ _ Hb E1); cbn [bind].
  eexists; split; [reflexivity|]. apply rd16_range; assumption.
Qed.
Lemma rdu64_some b i : bytes_ok b -> 0 <= i -> i + 8 <= zlen b -> exists v, rdu64 b i = Ok v /\ 0 <= v < U64.
Proof.
  intros Hb H1 H2. unfold rdu64.
  destruct (rdu32_some b i) as (a & -> & ?); [assumption|lia|lia|]; cbn [bind].
  destruct (rdu32_some b (i + 4)) as (c & -> & ?); [assumption|lia|lia|]; cbn [bind].
  eexists; split; [reflexivity|]. unfold U32, U64 in *; lia.
Qed.
Lemma byte_some b i : bytes_ok b -> 0 <= i < zlen b -> exists v, idx b i = Ok v /\ byte_ok v.
Proof. intros Hb H. destruct (idx_ok b i H) as (a & E & _). exists a; split; [exact E|]. eapply idx_byte; eauto. Qed.
Lemma from_some b i : bytes_ok b -> 0 <= i <= zlen b ->
  exists r, from b i = Ok r /\ bytes_ok r /\ zlen r = zlen b - i.
Proof.
  intros Hb H. exists (skipn (Z.to_nat i) b). split; [apply from_ok; lia|]. split; [apply bytes_ok_skipn; assumption|].
  rewrite zlen_skipn. lia.
Qed.
Lemma upto_some b i : bytes_ok b -> 0 <= i <= zlen b ->
  exists r, upto b i = Ok r /\ bytes_ok r /\ zlen r = i.
Proof.
  intros Hb H. exists (firstn (Z.to_nat i) b). split; [apply upto_ok; lia|]. split; [apply bytes_ok_firstn; assumption|].
  rewrite zlen_firstn. lia.
Qed.

(** one reading step: discharge the bounds with [lia] *)
Ltac rd1 :=
  match goal with
  | |- context [rdu32 ?b ?i] => let v := fresh "v" in let E := fresh "E" in let R := fresh "R" in
      destruct (rdu32_some b i) as (v & E & R); [assumption|lia|lia|rewrite E; cbn [bind]]
  | |- context [rdu24 ?b ?i] => let v := fresh "v" in let E := fresh "E" in let R := fresh "R" in
      destruct (rdu24_some b i) as (v & E & R); [assumption|lia|lia|rewrite E; cbn [bind]]
  | |- context [rdu16 ?b ?i] => let v := fresh "v" in let E := fresh "E" in let R := fresh "R" in
      destruct (rdu16_some b i) as (v & E & R); [assumption|lia|lia|rewrite E; cbn [bind]]
  | |- context [rdu64 ?b ?i] => let v := fresh "v" in let E := fresh "E" in let R := fresh "R" in
      destruct (rdu64_some b i) as (v & E & R); [assumption|lia|lia|rewrite E; cbn [bind]]
  | |- context [idx ?b ?i] => let v := fresh "v" in let E := fresh "E" in let R := fresh "R" in
      destruct (byte_some b i) as (v & E & R); [assumption|lia|rewrite E; cbn [bind]; unfold byte_ok in R]
  | |- context [from ?b ?i] => let v := fresh "r" in let E := fresh "E" in let B := fresh "B" in let R := fresh "R" in
      destruct (from_some b i) as (v & E & B & R); [assumption|lia|rewrite E; cbn [bind]]
  | |- context [upto ?b ?i] => let v := fresh "r" in let E := fresh "E" in let B := fresh "B" in let R := fresh "R" in
      destruct (upto_some b i) as (v & E & B & R); [assumption|lia|rewrite E; cbn [bind]]
  end.

Definition np {A} (r : res A) : Prop := r <> Panic.
Lemma np_ok {A} (a : A) : np (Ok a). Proof. discriminate. Qed.
Lemma np_err {A} : np (@Err A). Proof. discriminate. Qed.
Lemma np_bind {A B} (r : res A) (f : A -> res B) : np r -> (forall a, r = Ok a -> np (f a)) -> np (bind r f).
Proof. intros H1 H2. destruct r; cbn; [auto|discriminate|]. unfold np in H1. congruence. Qed.
#[export] Hint Resolve np_ok np_err : core.

Lemma read_n_np {A} sz (rd : list Z -> res A) :
  0 <= sz -> (forall b, bytes_ok b -> sz <= zlen b -> np (rd b)) ->
  forall n b, bytes_ok b -> Z.of_nat n * sz <= zlen b -> np (read_n n sz rd b).
Proof.
  intros Hs Hr. induction n as [|n IH]; intros b Hb Hl; cbn [read_n]; [auto|].
  apply np_bind; [apply Hr; [assumption|nia]|]. intros a Ea.
  destruct (from_some b sz) as (r & -> & B & R); [assumption|nia|]. cbn [bind].
  apply np_bind; [apply IH; [assumption|nia]|]. auto.
Qed.

(** ** TWCC *)
Lemma chunk_parse_np b : bytes_ok b -> np (chunk_parse b).
Proof.
  intros Hb. unfold chunk_parse. destruct (zlen b <? 2) eqn:E; [auto|]. repeat rd1.
  destruct (0 <? _); [destruct (0 <? _)|]; auto.
Qed.
Lemma chunk_parse_len b c : chunk_parse b = Ok c -> 2 <= zlen b.
Proof. unfold chunk_parse. destruct (zlen b <? 2) eqn:E; [discriminate|lia]. Qed.
Lemma chunks_parse_np : forall f todo b, bytes_ok b -> (length b < f)%nat ->
  np (chunks_parse f todo b) /\ (forall cs r, chunks_parse f todo b = Ok (cs, r) -> bytes_ok r).
Proof.
  induction f as [|f IH]; intros todo b Hb Hf; [lia|]. cbn [chunks_parse].
  destruct (todo <=? 0).
  - split; [auto|]. intros cs r E. injection E as <- <-. assumption.
  - pose proof (chunk_parse_np b Hb) as N. destruct (chunk_parse b) as [c| |] eqn:Ec; cbn [bind].
    2:{ split; [auto|discriminate]. } 2:{ exfalso; apply N; reflexivity. }
    apply chunk_parse_len in Ec. destruct (from_some b 2) as (r & -> & B & R); [assumption|lia|]. cbn [bind].
    destruct (IH (todo - chunk_max c) r B) as [I1 I2]; [unfold zlen in *; lia|].
    destruct (chunks_parse f (todo - chunk_max c) r) as [[cs b']| |]; cbn [bind].
    + split; [auto|]. intros cs' r' E. injection E as <- <-. eauto.
    + split; [auto|discriminate].
    + exfalso; apply I1; reflexivity.
Qed.
Lemma smalls_np : forall n b i, bytes_ok b -> 0 <= i -> i + Z.of_nat n <= zlen b -> np (smalls n b i).
Proof.
  induction n as [|n IH]; intros b i Hb Hi Hl; cbn [smalls]; [auto|]. rd1.
  apply np_bind; [apply IH; [assumption|lia|lia]|]. auto.
Qed.
Lemma larges_np : forall n b i, bytes_ok b -> 0 <= i -> i + 2 * Z.of_nat n <= zlen b -> np (larges n b i).
Proof.
  induction n as [|n IH]; intros b i Hb Hi Hl; cbn [larges]; [auto|]. rd1. rd1.
  apply np_bind; [apply IH; [assumption|lia|lia]|]. auto.
Qed.
Lemma read_small_np b n : bytes_ok b -> 0 <= n -> np (read_small b n) /\ (forall d, read_small b n = Ok d -> n <= zlen b).
Proof.
  intros Hb Hn. unfold read_small. destruct (zlen b <? n) eqn:E; [split; [auto|discriminate]|].
  split; [apply smalls_np; [assumption|lia|lia]|]. lia.
Qed.
Lemma read_large_np b n : bytes_ok b -> 0 <= n -> np (read_large b n) /\ (forall d, read_large b n = Ok d -> n * 2 <= zlen b).
Proof.
  intros Hb Hn. unfold read_large. destruct (zlen b <? n * 2) eqn:E; [split; [auto|discriminate]|].
  split; [apply larges_np; [assumption|lia|lia]|]. lia.
Qed.
Definition npb {A} (r : res (A * list Z)) : Prop := np r /\ forall a b, r = Ok (a, b) -> bytes_ok b.
Lemma npb_ok {A} (a : A) b : bytes_ok b -> npb (Ok (a, b)).
Proof. intro H. split; [auto|]. intros a' b' E. injection E as <- <-. assumption. Qed.
Lemma npb_err {A} : npb (@Err (A * list Z)). Proof. split; [auto|discriminate]. Qed.

Lemma read_small_step {A} (k : list delta -> list Z -> res (A * list Z)) b n : bytes_ok b -> 0 <= n ->
  (forall d r, bytes_ok r -> npb (k d r)) ->
  npb (do d <- read_small b n ; do r <- from b n ; k d r).
Proof.
  intros Hb Hn K. destruct (read_small_np b n Hb Hn) as [N L].
  destruct (read_small b n) as [d| |]; cbn [bind]; [|apply npb_err|exfalso; apply N; reflexivity].
  specialize (L d eq_refl). rd1. apply K; assumption.
Qed.
Lemma read_large_step {A} (k : list delta -> list Z -> res (A * list Z)) b n m : bytes_ok b -> 0 <= n -> 0 <= m <= n * 2 ->
  (forall d r, bytes_ok r -> npb (k d r)) ->
  npb (do d <- read_large b n ; do r <- from b m ; k d r).
Proof.
  intros Hb Hn Hm K. destruct (read_large_np b n Hb Hn) as [N L].
  destruct (read_large b n) as [d| |]; cbn [bind]; [|apply npb_err|exfalso; apply N; reflexivity].
  specialize (L d eq_refl). rd1. apply K; assumption.
Qed.
Lemma double_deltas_np : forall n sh v b, bytes_ok b -> npb (double_deltas n sh v b).
Proof.
  induction n as [|n IH]; intros sh v b Hb; cbn [double_deltas]; [apply npb_ok; assumption|].
  destruct (status_of _).
  - apply IH; assumption.
  - apply read_small_step; [assumption|lia|]. intros d r Hr.
    destruct (IH (sh - 2) v r Hr) as [I1 I2]. destruct (double_deltas n (sh - 2) v r) as [[x y]| |]; cbn [bind].
    + apply npb_ok. eauto.
    + apply npb_err.
    + exfalso; apply I1; reflexivity.
  - apply read_large_step; [assumption|lia|lia|]. intros d r Hr.
    destruct (IH (sh - 2) v r Hr) as [I1 I2]. destruct (double_deltas n (sh - 2) v r) as [[x y]| |]; cbn [bind].
    + apply npb_ok. eauto.
    + apply npb_err.
    + exfalso; apply I1; reflexivity.
  - apply IH; assumption.
Qed.
Lemma ones_nonneg : forall n v, 0 <= ones n v.
Proof. induction n as [|n IH]; intros v; cbn [ones]; [lia|]. specialize (IH (v / 2)). dlia. Qed.
Definition chunk_nn (c : chunk) : Prop := match c with Run _ n => 0 <= n | _ => True end.
Lemma chunk_deltas_np c b : bytes_ok b -> chunk_nn c -> npb (chunk_deltas c b).
Proof.
  intros Hb Hc. unfold chunk_deltas. destruct c as [[]| |]; cbn in Hc; try (apply npb_ok; assumption).
  - apply read_small_step; [assumption|assumption|]. intros; apply npb_ok; assumption.
  - apply read_large_step; [assumption|assumption|lia|]. intros; apply npb_ok; assumption.
  - apply read_small_step; [assumption|apply ones_nonneg|]. intros; apply npb_ok; assumption.
  - apply double_deltas_np; assumption.
Qed.
Lemma chunks_deltas_np : forall l b, bytes_ok b -> Forall chunk_nn l -> np (chunks_deltas l b).
Proof.
  induction l as [|c l IH]; intros b Hb F; cbn [chunks_deltas]; [auto|].
  destruct (chunk_deltas_np c b Hb (Forall_inv F)) as [N B].
  destruct (chunk_deltas c b) as [[d r]| |]; cbn [bind]; [|auto|exfalso; apply N; reflexivity].
  apply np_bind; [|auto]. apply IH; [eauto|exact (Forall_inv_tail F)].
Qed.
Lemma chunk_parse_nn b c : chunk_parse b = Ok c -> chunk_nn c.
Proof.
  unfold chunk_parse. destruct (zlen b <? 2); [discriminate|].
  destruct (idx b 0); cbn [bind]; try discriminate. destruct (idx b 1); cbn [bind]; try discriminate.
  destruct (0 <? Z.land (rd16 a a0) 32768); [destruct (0 <? Z.land (rd16 a a0) 16384)|];
    intro E; injection E as <-; cbn; auto.
  apply Z.land_nonneg. right. lia.
Qed.
Lemma chunks_parse_nn : forall f todo b cs r, chunks_parse f todo b = Ok (cs, r) -> Forall chunk_nn cs.
Proof.
  induction f as [|f IH]; intros todo b cs r; cbn [chunks_parse]; (destruct (todo <=? 0); [intro E; injection E as <- <-; constructor|]).
  - discriminate.
  - destruct (chunk_parse b) as [c| |] eqn:Ec; cbn [bind]; try discriminate.
    destruct (from b 2) as [b'| |]; cbn [bind]; try discriminate.
    destruct (chunks_parse f (todo - chunk_max c) b') as [[cs' r']| |] eqn:E; cbn [bind]; try discriminate.
    intro Q; injection Q as <- <-. constructor; [eapply chunk_parse_nn; eauto|eauto].
Qed.
Lemma twcc_parse_np b : bytes_ok b -> np (twcc_parse b).
Proof.
  intro Hb. unfold twcc_parse. destruct (zlen b <? 16) eqn:E; [auto|]. repeat rd1.
  destruct (chunks_parse_np (S (length r)) v3 r B) as [N K]; [lia|].
  destruct (chunks_parse (S (length r)) v3 r) as [[cs b']| |] eqn:Ec; cbn [bind]; [|auto|exfalso; apply N; reflexivity].
  apply np_bind; [|auto]. apply chunks_deltas_np; [eauto|eapply chunks_parse_nn; eauto].
Qed.

(** ** The other packets *)
Lemma rr_parse_np b : bytes_ok b -> np (rr_parse b).
Proof. intro Hb. unfold rr_parse. destruct (zlen b <? 24) eqn:E; [auto|]. repeat rd1. auto. Qed.
Lemma rrs_parse_np b : bytes_ok b -> np (rrs_parse b).
Proof.
  intro Hb. unfold rrs_parse. apply read_n_np; [lia| |assumption|].
  - intros; apply rr_parse_np; assumption.
  - pose proof (zlen_nonneg b). rewrite Z2Nat.id; dlia.
Qed.
Lemma rrp_parse_np b : bytes_ok b -> np (rrp_parse b).
Proof.
  intro Hb. unfold rrp_parse. destruct (zlen b <? 4) eqn:E; [auto|]. repeat rd1.
  apply np_bind; [apply rrs_parse_np; assumption|auto].
Qed.
Lemma sr_parse_np b : bytes_ok b -> np (sr_parse b).
Proof.
  intro Hb. unfold sr_parse, sinfo_parse. destruct (zlen b <? 24) eqn:E; [cbn; auto|]. repeat rd1.
  apply np_bind; [apply rrs_parse_np; assumption|auto].
Qed.
Lemma sdes_vals_np : forall f n abs b, bytes_ok b -> (length b < f)%nat -> np (sdes_vals_parse f n abs b).
Proof.
  induction f as [|f IH]; intros n abs b Hb Hf; [lia|]. cbn [sdes_vals_parse].
  destruct (n =? 31); [auto|]. destruct (match b with [z] => z =? SD_END | _ => false end); [auto|].
  destruct (zlen b <? 2) eqn:E; [auto|]. rd1.
  destruct (sdes_type v =? SD_END); [destruct (_ && _); auto|].
  rd1. destruct (zlen b <? 2 + v0) eqn:E2; [auto|]. rd1. rd1. rd1.
  assert (length r0 < f)%nat by (unfold zlen in *; lia).
  destruct (utf8 r1); [|apply IH; assumption].
  apply np_bind; [apply IH; assumption|auto].
Qed.
Lemma sdes_parse_np b : bytes_ok b -> np (sdes_parse b).
Proof.
  intro Hb. unfold sdes_parse. destruct (zlen b <? 8) eqn:E; [auto|]. repeat rd1.
  apply np_bind; [apply sdes_vals_np; [assumption|lia]|auto].
Qed.
Lemma sumz_nonneg l : Forall (fun x => 0 <= x) l -> 0 <= sumz l.
Proof. unfold sumz. induction 1; cbn [fold_right]; lia. Qed.
Lemma sdes_size_pos s : 1 <= sdes_size s.
Proof.
  unfold sdes_size. assert (0 <= sumz (map (fun v => 2 + zlen (snd v)) (sd_vals s))) as N.
  { apply sumz_nonneg. apply Forall_forall. intros x Hx. apply in_map_iff in Hx. destruct Hx as (v & <- & _).
    pose proof (zlen_nonneg (snd v)). lia. }
  destruct (_ =? 4); dlia.
Qed.
Lemma sdess_np : forall f n b, bytes_ok b -> (length b < f)%nat -> np (sdess_parse f n b).
Proof.
  induction f as [|f IH]; intros n b Hb Hf; [lia|]. cbn [sdess_parse].
  destruct (n =? 31); [auto|]. destruct (zlen b <? 8) eqn:E; [auto|].
  apply np_bind; [apply sdes_parse_np; assumption|]. intros s _.
  pose proof (sdes_size_pos s). destruct (_ || _) eqn:Q; [auto|]. rd1.
  apply np_bind; [|auto]. apply IH; [assumption|unfold zlen in *; lia].
Qed.
Lemma u32_np b : bytes_ok b -> 4 <= zlen b -> np (rdu32 b 0).
Proof. intros. rd1. auto. Qed.
Lemma bye_parse_np c b : 0 <= c -> bytes_ok b -> np (bye_parse c b).
Proof.
  intros Hc Hb. unfold bye_parse. destruct (zlen b <? 4); [auto|]. destruct (zlen b <? c * 4) eqn:E; [auto|].
  apply np_bind; [|auto]. apply read_n_np; [lia|intros; apply u32_np; assumption|assumption|lia].
Qed.
Lemma nack_parse_np b : bytes_ok b -> np (nack_parse b).
Proof.
  intro Hb. unfold nack_parse. destruct (zlen b <? 12) eqn:E; [auto|]. repeat rd1.
  apply np_bind; [|auto]. apply read_n_np; [lia| |assumption|].
  - intros b0 H1 H2. unfold nentry_parse. repeat rd1. auto.
  - rewrite Z2Nat.id; dlia.
Qed.
Lemma pli_parse_np b : bytes_ok b -> np (pli_parse b).
Proof. intro Hb. unfold pli_parse. destruct (zlen b <? 8) eqn:E; [auto|]. repeat rd1. auto. Qed.
Lemma fir_parse_np b : bytes_ok b -> np (fir_parse b).
Proof.
  intro Hb. unfold fir_parse. destruct (zlen b <? 16) eqn:E; [auto|]. repeat rd1.
  apply np_bind; [|auto]. apply read_n_np; [lia| |assumption|].
  - intros b0 H1 H2. unfold fentry_parse. repeat rd1. auto.
  - rewrite Z2Nat.id; dlia.
Qed.
Lemma dlrr_items_np : forall n b, bytes_ok b -> np (dlrr_items n b).
Proof.
  induction n as [|n IH]; intros b Hb; cbn [dlrr_items]; [auto|]. destruct (zlen b <? 12) eqn:E; [auto|].
  repeat rd1. apply np_bind; [apply IH; assumption|auto].
Qed.
Lemma xblock_parse_np b : bytes_ok b -> np (xblock_parse b).
Proof.
  intro Hb. unfold xblock_parse. destruct b as [|ty b']; [auto|]. set (b := ty :: b') in *. clearbody b.
  destruct (ty =? 4).
  - destruct (zlen b <? 12) eqn:E; [auto|]. rd1. auto.
  - destruct (ty =? 5); [|auto]. destruct (zlen b <? 4) eqn:E; [auto|]. rd1. rd1.
    apply np_bind; [apply dlrr_items_np; assumption|auto].
Qed.
Lemma xblock_len_pos x : 4 <= xblock_len x.
Proof. destruct x; unfold xblock_len; [lia|]. pose proof (zlen_nonneg items). lia. Qed.
Lemma xblocks_parse_np : forall f b, bytes_ok b -> (length b < f)%nat -> np (xblocks_parse f b).
Proof.
  induction f as [|f IH]; intros b Hb Hf; [lia|]. cbn [xblocks_parse].
  pose proof (xblock_parse_np b Hb) as N. destruct (xblock_parse b) as [x| |]; [|auto|exfalso; apply N; reflexivity].
  pose proof (xblock_len_pos x). destruct (_ || _) eqn:Q; [auto|]. rd1.
  apply np_bind; [|auto]. apply IH; [assumption|unfold zlen in *; lia].
Qed.
Lemma xr_parse_np b : bytes_ok b -> np (xr_parse b).
Proof.
  intro Hb. unfold xr_parse. destruct (zlen b <? 4) eqn:E; [auto|]. repeat rd1.
  apply np_bind; [apply xblocks_parse_np; [assumption|lia]|auto].
Qed.
Lemma remb_parse_np b : bytes_ok b -> np (remb_parse b).
Proof.
  intro Hb. unfold remb_parse. destruct (zlen b <? 16) eqn:E; [auto|]. rd1. rd1.
  destruct (negb _); [auto|]. do 4 rd1. destruct (negb _); [auto|]. do 4 rd1.
  destruct (if _ =? 0 then _ else _) as [mm e]. destruct (zlen b <? 16 + v5 * 4) eqn:E10; [auto|]. rd1.
  apply np_bind; [|auto]. apply read_n_np; [lia|intros; apply u32_np; assumption|assumption|lia].
Qed.
Lemma app_parse_np b : bytes_ok b -> np (app_parse b).
Proof. intro Hb. unfold app_parse. destruct (zlen b <? 8) eqn:E; [auto|]. repeat rd1. auto. Qed.
Lemma hdr_parse_np b : bytes_ok b -> np (hdr_parse b).
Proof.
  intro Hb. unfold hdr_parse. destruct (zlen b <? 4) eqn:E; [auto|]. repeat rd1.
  repeat match goal with |- np (if ?c then _ else _) => destruct c; [auto|] end. auto.
Qed.
Lemma hdr_parse_inv b ty fmt w : bytes_ok b -> hdr_parse b = Ok (ty, fmt, w) ->
  4 <= zlen b /\ 0 <= fmt /\ 1 <= w.
Proof.
  intro Hb. unfold hdr_parse. destruct (zlen b <? 4) eqn:E; [discriminate|]. repeat rd1.
  repeat match goal with |- (if ?c then _ else _) = _ -> _ => destruct c; [discriminate|] end.
  intro Q; injection Q as <- <- <-. split; [lia|]. split; [apply Z.land_nonneg; right; lia|lia].
Qed.
Lemma parse_np b : bytes_ok b -> np (parse b).
Proof.
  intro Hb. unfold parse. apply np_bind; [apply hdr_parse_np; assumption|].
  intros [[ty fmt] w] Eh. destruct (hdr_parse_inv _ _ _ _ Hb Eh) as (H4 & Hf & Hw). rd1.
  destruct (ty =? 200); [apply sr_parse_np; assumption|].
  destruct (ty =? 201); [apply rrp_parse_np; assumption|].
  destruct (ty =? 202); [apply np_bind; [apply sdess_np; [assumption|lia]|auto]|].
  destruct (ty =? 203); [apply bye_parse_np; assumption|].
  destruct (ty =? 204); [auto|].
  destruct (ty =? 205).
  { destruct (fmt =? 1); [apply nack_parse_np; assumption|]. apply np_bind; [apply twcc_parse_np; assumption|auto]. }
  destruct (ty =? 206); [|apply xr_parse_np; assumption].
  destruct (fmt =? 1); [apply pli_parse_np; assumption|].
  destruct (fmt =? 2); [auto|]. destruct (fmt =? 3); [auto|].
  destruct (fmt =? 4); [apply fir_parse_np; assumption|].
  pose proof (remb_parse_np r B) as N. destruct (remb_parse r); [auto|apply app_parse_np; assumption|].
  exfalso; apply N; reflexivity.
Qed.
Lemma read_packets_np : forall f b, bytes_ok b -> (length b < f)%nat -> np (read_packets f b).
Proof.
  induction f as [|f IH]; intros b Hb Hf; [lia|]. cbn [read_packets].
  destruct b as [|b0 bt]; [auto|]. set (b := b0 :: bt) in *.
  pose proof (hdr_parse_np b Hb) as N. destruct (hdr_parse b) as [[[ty fmt] w]| |] eqn:Eh; [|auto|exfalso; apply N; reflexivity].
  destruct (hdr_parse_inv _ _ _ _ Hb Eh) as (H4 & Hfm & Hw).
  clearbody b. destruct (zlen b <? w * 4) eqn:E; [auto|].
  assert (exists pad, (if 0 <? Z.land b0 32 then idx b (w * 4 - 1) else Ok 0) = Ok pad /\ 0 <= pad) as (pad & -> & Hp).
  { destruct (0 <? Z.land b0 32); [rd1; exists v; split; [reflexivity|lia]|exists 0; split; [reflexivity|lia]]. }
  cbn [bind]. destruct (w * 4 <? pad) eqn:E2; [auto|]. rd1. rd1.
  assert (length r < f)%nat by (unfold zlen in *; lia).
  pose proof (parse_np r0 B0) as P. destruct (parse r0); [|apply IH; assumption|exfalso; apply P; reflexivity].
  apply np_bind; [apply IH; assumption|auto].
Qed.

(** Reading values and attributes back. *)
From Coq Require Import String Ascii Permutation.
From Verif Require Import Base BaseFacts PayModel PrioModel TextModel TextFacts SdpModel SdpSpec SdpProofs1.

(** ** Values *)
Lemma mid_back : forall m, mid_ok m -> mid_from m = m.
Proof.
  intros m (_ & L & H). unfold mid_from. assert (E : map (fun c => if ascii_alnum c then c else 95) m = m).
  { clear L. induction H as [|c m Hc H IH]; [reflexivity|]. cbn [map]. rewrite IH. f_equal.
    unfold plain in Hc. unfold ascii_alnum, is_digit, is_upper, is_lower. destruct Hc as [Hc| ->]; [|reflexivity].
    destruct (_ || _) eqn:E; [reflexivity|]. lia. }
  rewrite E. apply firstn_all2. unfold zlen in L. lia.
Qed.
Lemma mid_word : forall m, mid_ok m -> word m.
Proof.
  intros m (N & _ & H). split; [exact N|]. eapply Forall_impl; [|exact H]. intros c. unfold plain. cbn. lia.
Qed.
Lemma word_line : forall v, word v -> line_text v.
Proof. intros v [N H]. split; [exact N|]. eapply Forall_impl; [|exact H]. cbn. intros; lia. Qed.

Definition hexck (b : Z) : bool :=
  match hex2 b with
  | [x; y] => is_some (digit_val 16 x) && is_some (digit_val 16 y) &&
              match read_num 16 255 [x; y] with Some v => v =? b | None => false end
  | _ => false
  end.
Lemma hexck_all : forallb (fun n => hexck (Z.of_nat n)) (seq 0 256) = true.
Proof. vm_compute. reflexivity. Qed.
Lemma hex_byte_ok : forall b r, u8 b -> p_hex_byte (hex2 b ++ r) = POk true b r.
Proof.
  intros b r Hb. unfold u8 in Hb. pose proof (proj1 (forallb_forall _ _) hexck_all (Z.to_nat b)) as H.
  cbv beta in H. rewrite Z2Nat.id in H by lia. specialize (H ltac:(apply in_seq; lia)).
  unfold hexck in H. destruct (hex2 b) as [|x [|y [|? ?]]]; try (exfalso; congruence).
  apply andb_prop in H. destruct H as [H H3]. apply andb_prop in H. destruct H as [H1 H2].
  unfold p_hex_byte. eapply pand_ok.
  - cbn [app]. eapply pbind_okt; [unfold satisfy; rewrite H1; reflexivity|].
    eapply pbind_okt; [unfold satisfy; rewrite H2; reflexivity|]. reflexivity.
  - destruct (read_num 16 255 [x; y]); [|congruence]. apply Z.eqb_eq in H3. congruence.
Qed.
Lemma map_pair_fst : forall A B (f : A -> B) l, map fst (map (fun x => (f x, x)) l) = map f l.
Proof. intros. rewrite map_map. reflexivity. Qed.
Lemma map_pair_snd : forall A B (f : A -> B) l, map snd (map (fun x => (f x, x)) l) = l.
Proof. intros. rewrite map_map. apply map_id. Qed.
(** a separated list where each element is written by [f] *)
Lemma sep_list : forall A (p : parser A) sep (f : A -> str) l tail, l <> [] ->
  (forall x r, In x l -> (exists s, r = sep :: s) \/ r = tail -> p (f x ++ r) = POk true x r) ->
  (match tail with [] => True | c :: _ => c <> sep end) ->
  sep_by1 p (token sep) (join [sep] (map f l) ++ tail) = POk true l tail.
Proof.
  intros A p sep f l tail N H S.
  pose proof (sep_by1_ok A p sep (map (fun x => (f x, x)) l) tail) as G. rewrite map_pair_fst, map_pair_snd in G. apply G.
  - destruct l; [congruence|discriminate].
  - intros w v r Hi Hr. apply in_map_iff in Hi. destruct Hi as (x & Hx & Hi). inversion Hx; subst. apply H; assumption.
  - exact S.
Qed.
Lemma finger_ok : forall f r, fingerprint_ok f -> exists b, show_bytes (fg_bytes f) = Ok b /\
  p_finger (T "a=fingerprint:" ++ fg_func f ++ T " " ++ b ++ crlf ++ r) = POk true f r.
Proof.
  intros [fn bs] r (Hf & Hn & Hb). cbn [fg_func fg_bytes] in *.
  exists (join (T ":") (map hex2 bs)). split; [unfold show_bytes; destruct bs; [congruence|reflexivity]|].
  unfold p_finger. eapply (attr_ok _ (T "fingerprint")); [discriminate|].
  eapply pbind_okt; [apply not_sp_ok; [exact Hf|reflexivity]|]. eapply pbind_okt; [reflexivity|].
  eapply pbind_okt; [|reflexivity]. apply (sep_list _ p_hex_byte 58 hex2).
  - exact Hn.
  - intros x s Hx _. apply hex_byte_ok. rewrite Forall_forall in Hb. apply Hb. exact Hx.
  - discriminate.
Qed.
Lemma setup_ok : forall v r, p_setup (T "a=setup:" ++ show_setup v ++ crlf ++ r) = POk true v r.
Proof. intros v r. unfold p_setup. eapply (attr_ok _ (T "setup")); [discriminate|]. destruct v; reflexivity. Qed.

Lemma find_uri_none : forall u l i, ~ In u l -> find_uri u l i = None.
Proof.
  intros u l. induction l as [|x l IH]; intros i H; [reflexivity|]. cbn [find_uri].
  rewrite seqb_neq by (intro; apply H; left; assumption). apply IH. intro; apply H; right; assumption.
Qed.
Lemma ext_back : forall x, ext_ok x -> ext_from (show_ext x) = x.
Proof.
  intros [i|u] H; cbn in H.
  - do 14 (destruct i as [|i]; [reflexivity|]). lia.
  - destruct H as [_ H]. unfold ext_from. cbn [show_ext]. rewrite find_uri_none by exact H. reflexivity.
Qed.
Lemma ext_word : forall x, ext_ok x -> word (show_ext x).
Proof.
  intros [i|u] H; cbn in H; [|apply H].
  do 14 (destruct i as [|i]; [split; [discriminate|]; cbn [show_ext nth ext_uris]; apply Forall_forall; intros c Hc;
    apply not_spc_iff; revert c Hc; apply forallb_forall; reflexivity|]). lia.
Qed.
Lemma codec_back : forall c, c <> Null -> codec_from (show_codec c) = c.
Proof. intros [] H; reflexivity || congruence. Qed.
Lemma codec_text : forall c, show_codec c <> [] /\ Forall (fun x => not_slash x = true) (show_codec c).
Proof. intros c. split; [destruct c; discriminate|]. apply Forall_forall. apply forallb_forall. destruct c; reflexivity. Qed.
Lemma dec_chars : forall n (f : Z -> bool), 0 <= n -> (forall c, 48 <= c <= 57 -> f c = true) ->
  dec n <> [] /\ Forall (fun c => f c = true) (dec n).
Proof.
  intros n f H Hf. destruct (dec_digits n H) as [N D]. split; [exact N|]. eapply Forall_impl; [|exact D]. cbn. intros; apply Hf; assumption.
Qed.
Lemma freq_back : forall k, 1 <= k <= 4294967295 -> read_freq (dec k) = Some k.
Proof.
  intros k H. unfold read_freq, read_u32. rewrite read_dec by lia. destruct k; [lia|reflexivity|lia].
Qed.
Lemma rtpmap_ok : forall pt c k ch r, mattr_ok (MRtpMap pt c k ch) ->
  p_rtpmap (T "a=rtpmap:" ++ dec pt ++ T " " ++ show_codec c ++ T "/" ++ dec k
          ++ (match ch with Some n => T "/" ++ dec n | None => [] end) ++ crlf ++ r) = POk true (MRtpMap pt c k ch) r.
Proof.
  intros pt c k ch r (Hpt & Hc & Hk & Hch). unfold p_rtpmap. eapply (attr_ok _ (T "rtpmap")); [discriminate|].
  assert (R : exists b, optional (pdo _d <- token 47; pand any_value read_u8)
     ((match ch with Some n => T "/" ++ dec n | None => [] end) ++ crlf ++ r) = POk b ch (crlf ++ r)).
  { destruct ch as [n|].
    - exists true. rewrite <- app_assoc. eapply optional_some. eapply pbind_okt; [reflexivity|].
      specialize (Hch n eq_refl). unfold u8 in Hch.
      eapply pand_ok; [apply any_ok; apply word_line; apply dec_word; lia|]. apply read_dec. lia.
    - exists false. reflexivity. }
  destruct R as [b R].
  eapply pbind_okt; [apply pt_read; [exact Hpt|reflexivity]|]. eapply pbind_okt; [reflexivity|].
  destruct (codec_text c) as [N1 F1]. eapply pbind_okt; [apply take1_ok; [exact N1|exact F1|reflexivity]|].
  eapply pbind_okt; [reflexivity|]. destruct (dec_chars k not_slash) as [N2 F2]; [lia|unfold not_slash, not_eol; intros; lia|].
  eapply pbind_okt; [eapply pand_ok; [apply take1_ok; [exact N2|exact F2|destruct ch; reflexivity]|apply freq_back; exact Hk]|].
  eapply pbind_ok; [exact R|]. rewrite codec_back by exact Hc. reflexivity.
Qed.

(** ** Key=value lists *)
Lemma key_val_ok : forall k v r, key_ok k -> val_ok v -> stop (fun c => negb (c =? 59) && not_spc c) r ->
  key_val (show_kv (k, v) ++ r) = POk true (k, v) r.
Proof.
  intros k v r ((Nk & Hk) & He & Hs) ((Nv & Hv) & Hsc) S. unfold key_val, show_kv. cbn [fst snd]. rewrite <- !app_assoc.
  eapply pbind_okf.
  - eapply optional_some. apply skip_none. destruct k as [|c k]; [congruence|]. cbn. eapply Hs. reflexivity.
  - eapply pbind_okt.
    + apply take1_ok; [exact Nk| |reflexivity]. rewrite Forall_forall in *. intros c Hc. specialize (Hk c Hc). specialize (He c Hc).
      cbn in Hk, He. unfold not_spc, not_eol. lia.
    + eapply pbind_okt; [reflexivity|]. eapply pbind_okt; [|reflexivity].
      apply take1_ok; [exact Nv| |exact S]. rewrite Forall_forall in *. intros c Hc. specialize (Hv c Hc). specialize (Hsc c Hc).
      cbn in Hv, Hsc. unfold not_spc, not_eol. lia.
Qed.
Lemma kvs_ok : forall l r, l <> [] -> Forall (fun kv => key_ok (fst kv) /\ val_ok (snd kv)) l ->
  sep_by1 key_val (token 59) (join (T ";") (map show_kv l) ++ crlf ++ r) = POk true l (crlf ++ r).
Proof.
  intros l r N H. apply (sep_list _ key_val 59 show_kv).
  - exact N.
  - intros [k v] s Hx Hr. rewrite Forall_forall in H. destruct (H _ Hx) as [Hk Hv]. apply key_val_ok; try assumption.
    destruct Hr as [[t ->]| ->]; reflexivity.
  - discriminate.
Qed.

(** ** Format parameters as pairs *)
Definition pairs_ptl (levels : list Z) (p : ptl) : list (str * str) :=
  [(T "profile-id", dec (pl_profile p)); (T "tier-flag", dec (pl_tier p)); (T "level-id", dec (level_id levels (pl_level p)))].
Definition pairs (f : fparam) : list (str * str) :=
  match f with
  | MinPTime v => [(T "minptime", dec v)]
  | UseInbandFec v => [(T "useinbandfec", bdisp v)]
  | UseDtx v => [(T "usedtx", bdisp v)]
  | Stereo v => [(T "stereo", bdisp v)]
  | SpropStereo v => [(T "sprop-stereo", bdisp v)]
  | LevelAsymmetryAllowed v => [(T "level-asymmetry-allowed", bdisp v)]
  | PacketizationMode v => [(T "packetization-mode", dec v)]
  | ProfileLevelId v => [(T "profile-level-id", pad 6 (show_num false 16 v))]
  | ProfileId v => [(T "profile-id", dec v)]
  | Profile v => [(T "profile", dec v)]
  | LevelIdx v => [(T "level-idx", dec v)]
  | Tier v => [(T "tier", dec v)]
  | FH265 p => pairs_ptl h265_levels p
  | FH266 p => pairs_ptl h266_levels p
  | SpropMaxDonDiff v => [(T "sprop-max-don-diff", dec v)]
  | Apt v => [(T "apt", dec v)]
  | FUnknown => []
  end.
Lemma show_pairs : forall f, show_fparam f = join (T ";") (map show_kv (pairs f)).
Proof.
  intro f. destruct f; try reflexivity;
    unfold show_fparam, show_ptl, pairs, pairs_ptl, join, map, show_kv, fst, snd; rewrite <- !app_assoc; reflexivity.
Qed.
Lemma join_app : forall sep a b, a <> [] -> b <> [] -> join sep (a ++ b) = join sep a ++ sep ++ join sep b.
Proof.
  intros sep a. induction a as [|x a IH]; intros b Na Nb; [congruence|]. destruct a as [|y a].
  - destruct b; [congruence|reflexivity].
  - change (join sep ((x :: y :: a) ++ b)) with (x ++ sep ++ join sep ((y :: a) ++ b)).
    rewrite IH by (discriminate || assumption).
    change (join sep (x :: y :: a)) with (x ++ sep ++ join sep (y :: a)). rewrite <- !app_assoc. reflexivity.
Qed.
Lemma fp_pairs_ne : forall f, fp_ok f -> pairs f <> [].
Proof. intros f H. destruct f; try discriminate. destruct H. Qed.
Lemma flat_ne : forall l, l <> [] -> Forall fp_ok l -> flat_map pairs l <> [].
Proof.
  intros [|f l] N H; [congruence|]. inversion H; subst. cbn. apply fp_pairs_ne in H2. destruct (pairs f); [congruence|discriminate].
Qed.
Lemma show_flat : forall l, Forall fp_ok l ->
  join (T ";") (map show_fparam l) = join (T ";") (map show_kv (flat_map pairs l)).
Proof.
  induction l as [|f l IH]; intro H; [reflexivity|]. inversion H as [|? ? Hf Hl]; subst. destruct l as [|g l].
  - cbn [map flat_map]. rewrite app_nil_r. cbn [join]. apply show_pairs.
  - change (flat_map pairs (f :: g :: l)) with (pairs f ++ flat_map pairs (g :: l)). rewrite map_app, join_app.
    + rewrite <- IH by exact Hl. rewrite <- show_pairs. reflexivity.
    + apply fp_pairs_ne in Hf. destruct (pairs f); [congruence|discriminate].
    + pose proof (flat_ne (g :: l)) as G. destruct (flat_map pairs (g :: l)); [exfalso; apply G; [discriminate|exact Hl|reflexivity]|discriminate].
Qed.
Lemma digits_val : forall base s, 2 <= base <= 16 -> s <> [] -> Forall (dig_ok base) s -> val_ok s.
Proof.
  intros base s Hb N D. assert (P : Forall (fun c => 48 <= c <= 57 \/ 65 <= c <= 70 \/ 97 <= c <= 102) s).
  { eapply Forall_impl; [|exact D]. intros c [d Hd]. apply dig16. exists d. unfold digit_val in *.
    destruct (if is_digit c then _ else _) as [v|]; [|exact Hd]. destruct (Z.ltb_spec v base); [|discriminate].
    destruct (Z.ltb_spec v 16); [exact Hd|lia]. }
  split; [split; [exact N|]|]; (eapply Forall_impl; [|exact P]); cbn; intros; lia.
Qed.
Lemma dec_val : forall v, 0 <= v -> val_ok (dec v).
Proof. intros v H. destruct (show_num_val false 10 v) as (N & D & _); [lia|exact H|]. eapply digits_val; [|exact N|exact D]; lia. Qed.
Lemma bdisp_val : forall b, val_ok (bdisp b).
Proof. intros []; [change (bdisp true) with [49]|change (bdisp false) with [48]]; (split; [split; [discriminate|]|]); (apply Forall_cons; [lia|apply Forall_nil]). Qed.
Definition keyb (k : str) : bool :=
  negb (is_nil k) && forallb (fun c => negb (c =? 61) && not_spc c && negb (is_space c)) k.
Lemma keyb_ok : forall k, keyb k = true -> key_ok k.
Proof.
  intros k H. unfold keyb in H. apply andb_prop in H. destruct H as [N H]. rewrite forallb_forall in H.
  split; [split|split].
  - destruct k; [intro; cbn in N; congruence|discriminate].
  - apply Forall_forall. intros c Hc. apply not_spc_iff. specialize (H c Hc). destruct (not_spc c); [reflexivity|]. lia.
  - apply Forall_forall. intros c Hc. specialize (H c Hc). lia.
  - intros c t ->. specialize (H c (or_introl eq_refl)). destruct (is_space c); [|reflexivity]. lia.
Qed.
Lemma nth_range : forall (l : list Z) m i, Forall (fun x => 0 <= x <= m) l -> 0 <= m -> 0 <= nth i l 0 <= m.
Proof.
  intros l m i H Hm. destruct (nth_in_or_default i l 0) as [I| ->]; [|lia]. rewrite Forall_forall in H. apply H. exact I.
Qed.
Lemma ptl_pairs_ok : forall pr lv p, ptl_ok pr lv p -> Forall (fun x => 0 <= x <= 255) pr -> Forall (fun x => 0 <= x <= 255) lv ->
  Forall (fun kv => key_ok (fst kv) /\ val_ok (snd kv)) (pairs_ptl lv p).
Proof.
  intros pr lv p (H1 & H2 & H3) Hp Hl. rewrite Forall_forall in Hp. specialize (Hp _ H1).
  pose proof (nth_range lv 255 (Z.to_nat (pl_level p)) Hl) as Hlv.
  unfold pairs_ptl, level_id. repeat (constructor; [split; [apply keyb_ok; reflexivity|apply dec_val; cbn [snd]; lia]|]). constructor.
Qed.
Lemma byte_list : forall l, forallb (fun x => (0 <=? x) && (x <=? 255)) l = true -> Forall (fun x => 0 <= x <= 255) l.
Proof. intros l H. apply Forall_forall. rewrite forallb_forall in H. intros x Hx. specialize (H x Hx). lia. Qed.
Lemma pairs_ok : forall f, fp_ok f -> Forall (fun kv => key_ok (fst kv) /\ val_ok (snd kv)) (pairs f).
Proof.
  intros f H. destruct f; cbn [pairs fp_ok] in *; unfold u8, u32 in *;
    try (constructor; [split; [apply keyb_ok; reflexivity|first [apply dec_val; cbn [snd]; lia|apply bdisp_val]]|constructor]);
    try (eapply ptl_pairs_ok; [exact H|apply byte_list; reflexivity|apply byte_list; reflexivity]).
  - constructor; [|constructor]. split; [apply keyb_ok; reflexivity|].
    destruct (pad_num false 16 6 v) as (N & D & _); [lia|lia|]. eapply digits_val; [|exact N|exact D]; lia.
  - destruct H.
Qed.
Lemma flat_ok : forall l, Forall fp_ok l -> Forall (fun kv => key_ok (fst kv) /\ val_ok (snd kv)) (flat_map pairs l).
Proof.
  intros l H. induction H as [|f l Hf H IH]; [constructor|]. cbn [flat_map]. apply Forall_app. split; [apply pairs_ok; exact Hf|exact IH].
Qed.

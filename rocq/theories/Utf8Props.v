(** C16/C20: what [str::from_utf8] accepts, as the two models have it, against RFC 3629. *)
From Verif Require Import Base BaseFacts.
From Verif Require ExtModel RtcpModel.

(** RFC 3629 section 3: a scalar value and its octets. *)
Definition scalar (c : Z) : Prop := 0 <= c < 55296 \/ 57344 <= c < 1114112.
Definition enc (c : Z) : list Z :=
  if c <? 128 then [c]
  else if c <? 2048 then [192 + c / 64; 128 + c mod 64]
  else if c <? 65536 then [224 + c / 4096; 128 + c / 64 mod 64; 128 + c mod 64]
  else [240 + c / 262144; 128 + c / 4096 mod 64; 128 + c / 64 mod 64; 128 + c mod 64].
Definition text (cs : list Z) : list Z := flat_map enc cs.
(** A character as the id parser sees it. *)
Definition seen (c : Z) : Z := if c <? 128 then c else -1.

Local Ltac bools := unfold ExtModel.rng, ExtModel.cont, RtcpModel.inr in *.
Lemma ext_enc c l : scalar c -> ExtModel.utf8 (enc c ++ l) = match ExtModel.utf8 l with Some r => Some (seen c :: r) | None => None end.
Proof.
  intro S. unfold scalar in S. unfold enc, seen.
  destruct (c <? 128) eqn:E1; [|destruct (c <? 2048) eqn:E2; [|destruct (c <? 65536) eqn:E3]]; cbn [app ExtModel.utf8]; bools.
  - replace ((0 <=? c) && (c <=? 127)) with true by lia. reflexivity.
  - assert (2 <= c / 64 < 32 /\ 0 <= c mod 64 < 64) by dlia. generalize dependent (c / 64). generalize (c mod 64). intros m q H.
    replace ((0 <=? 192 + q) && (192 + q <=? 127)) with false by lia. replace (_ && _) with true by lia. reflexivity.
  - assert (0 <= c / 4096 < 16 /\ 0 <= c / 64 mod 64 < 64 /\ 0 <= c mod 64 < 64 /\ c = c / 4096 * 4096 + c / 64 mod 64 * 64 + c mod 64) as H by dlia.
    generalize dependent (c / 4096). generalize (c / 64 mod 64). generalize (c mod 64). intros m q p H.
    replace ((0 <=? 224 + p) && (224 + p <=? 127)) with false by lia.
    replace ((194 <=? 224 + p) && (224 + p <=? 223) && _) with false by lia.
    replace (_ && _) with true by lia. reflexivity.
  - assert (0 <= c / 262144 < 5 /\ 0 <= c / 4096 mod 64 < 64 /\ 0 <= c / 64 mod 64 < 64 /\ 0 <= c mod 64 < 64 /\
      c = c / 262144 * 262144 + c / 4096 mod 64 * 4096 + c / 64 mod 64 * 64 + c mod 64) as H by dlia.
    generalize dependent (c / 262144). generalize (c / 4096 mod 64). generalize (c / 64 mod 64). generalize (c mod 64). intros m q p o H.
    replace ((0 <=? 240 + o) && (240 + o <=? 127)) with false by lia.
    replace ((194 <=? 240 + o) && (240 + o <=? 223) && _) with false by lia.
    match goal with |- (if ?b then _ else _) = _ => replace b with false by lia end.
    match goal with |- (if ?b then _ else _) = _ => replace b with true by lia end. reflexivity.
Qed.
Lemma rtcp_enc c l : scalar c -> RtcpModel.utf8 (enc c ++ l) = RtcpModel.utf8 l.
Proof.
  intro S. unfold scalar in S. unfold enc.
  destruct (c <? 128) eqn:E1; [|destruct (c <? 2048) eqn:E2; [|destruct (c <? 65536) eqn:E3]]; cbn [app RtcpModel.utf8]; bools.
  - replace ((0 <=? c) && (c <=? 127)) with true by lia. reflexivity.
  - assert (2 <= c / 64 < 32 /\ 0 <= c mod 64 < 64) by dlia. generalize dependent (c / 64). generalize (c mod 64). intros m q H.
    replace ((0 <=? 192 + q) && (192 + q <=? 127)) with false by lia. replace ((194 <=? 192 + q) && _) with true by lia. 
    replace ((128 <=? 128 + m) && _) with true by lia. reflexivity.
  - assert (0 <= c / 4096 < 16 /\ 0 <= c / 64 mod 64 < 64 /\ 0 <= c mod 64 < 64 /\ c = c / 4096 * 4096 + c / 64 mod 64 * 64 + c mod 64) as H by dlia.
    generalize dependent (c / 4096). generalize (c / 64 mod 64). generalize (c mod 64). intros m q p H.
    replace ((0 <=? 224 + p) && (224 + p <=? 127)) with false by lia.
    replace ((194 <=? 224 + p) && (224 + p <=? 223)) with false by lia.
    match goal with |- (if ?b then _ else _) = _ => replace b with true by lia end. replace ((128 <=? 128 + m) && _) with true by lia. reflexivity.
  - assert (0 <= c / 262144 < 5 /\ 0 <= c / 4096 mod 64 < 64 /\ 0 <= c / 64 mod 64 < 64 /\ 0 <= c mod 64 < 64 /\
      c = c / 262144 * 262144 + c / 4096 mod 64 * 4096 + c / 64 mod 64 * 64 + c mod 64) as H by dlia.
    generalize dependent (c / 262144). generalize (c / 4096 mod 64). generalize (c / 64 mod 64). generalize (c mod 64). intros m q p o H.
    replace ((0 <=? 240 + o) && (240 + o <=? 127)) with false by lia.
    replace ((194 <=? 240 + o) && (240 + o <=? 223)) with false by lia.
    match goal with |- (if ?b then _ else _) = _ => replace b with false by lia end.
    match goal with |- ?b && RtcpModel.utf8 l = _ => replace b with true by lia end. reflexivity.
Qed.

(** Every valid prefix is one encoded scalar. *)
Lemma enc2 a b : 194 <= a <= 223 -> 128 <= b <= 191 -> exists c, scalar c /\ 128 <= c /\ enc c = [a; b].
Proof.
  intros. exists ((a - 192) * 64 + (b - 128)). unfold scalar, enc. split; [lia|]. split; [lia|].
  match goal with |- context [?c <? 128] => replace (c <? 128) with false by lia; replace (c <? 2048) with true by lia end.
  f_equal; [dlia|f_equal; dlia].
Qed.
Lemma enc3 a b c : 224 <= a <= 239 -> 128 <= b <= 191 -> 128 <= c <= 191 -> (a = 224 -> 160 <= b) -> (a = 237 -> b <= 159) ->
  exists x, scalar x /\ 128 <= x /\ enc x = [a; b; c].
Proof.
  intros. exists ((a - 224) * 4096 + (b - 128) * 64 + (c - 128)). unfold scalar, enc. split; [lia|]. split; [lia|].
  match goal with |- context [?c <? 128] => replace (c <? 128) with false by lia; replace (c <? 2048) with false by lia; replace (c <? 65536) with true by lia end.
  f_equal; [dlia|f_equal; [dlia|f_equal; dlia]].
Qed.
Lemma enc4 a b c d : 240 <= a <= 244 -> 128 <= b <= 191 -> 128 <= c <= 191 -> 128 <= d <= 191 -> (a = 240 -> 144 <= b) -> (a = 244 -> b <= 143) ->
  exists x, scalar x /\ 128 <= x /\ enc x = [a; b; c; d].
Proof.
  intros. exists ((a - 240) * 262144 + (b - 128) * 4096 + (c - 128) * 64 + (d - 128)). unfold scalar, enc. split; [lia|]. split; [lia|].
  match goal with |- context [?c <? 128] => replace (c <? 128) with false by lia; replace (c <? 2048) with false by lia; replace (c <? 65536) with false by lia end.
  f_equal; [dlia|f_equal; [dlia|f_equal; [dlia|f_equal; dlia]]].
Qed.

(** Exactly the texts of RFC 3629 are accepted, and every character is seen once, in order. *)
Theorem C16_id_text : forall l chars,
  ExtModel.utf8 l = Some chars <-> exists cs, Forall scalar cs /\ l = text cs /\ chars = map seen cs.
Proof.
  intros l chars. split.
  - assert (forall n l, (length l <= n)%nat -> forall chars, ExtModel.utf8 l = Some chars -> exists cs, Forall scalar cs /\ l = text cs /\ chars = map seen cs) as G; [|eauto].
    clear. induction n as [|n IH]; intros l L chars.
    { destruct l; [|cbn in L; lia]. intros [= <-]. exists []. repeat split. constructor. }
    assert (forall l' r c, (length l' <= n)%nat -> ExtModel.utf8 l' = Some r -> scalar c -> exists cs, Forall scalar cs /\ enc c ++ l' = text cs /\ seen c :: r = map seen cs) as ST.
    { intros l' r c LL E S. destruct (IH l' LL r E) as (cs & F & -> & ->). exists (c :: cs). repeat split. constructor; assumption. }
    destruct l as [|a l1]; [intros [= <-]; exists []; repeat split; constructor|]. cbn [ExtModel.utf8 length] in *. bools.
    destruct ((0 <=? a) && (a <=? 127)) eqn:E1.
    { destruct (ExtModel.utf8 l1) as [r|] eqn:U; [|discriminate]. intros [= <-]. destruct (ST l1 r a ltac:(lia) U ltac:(red; lia)) as (cs & F & X & Y).
      unfold enc, seen in X, Y. replace (a <? 128) with true in * by lia. exists cs. auto. }
    destruct l1 as [|b l2]; [discriminate|]. cbn [length] in *.
    destruct ((194 <=? a) && (a <=? 223) && ((128 <=? b) && (b <=? 191))) eqn:E2.
    { destruct (ExtModel.utf8 l2) as [r|] eqn:U; [|discriminate]. intros [= <-]. destruct (enc2 a b ltac:(lia) ltac:(lia)) as (c & S & G & EC).
      destruct (ST l2 r c ltac:(lia) U S) as (cs & F & X & Y). rewrite EC in X. unfold seen in Y at 1. replace (c <? 128) with false in Y by lia. exists cs. auto. }
    destruct l2 as [|c l3]; [discriminate|]. cbn [length] in *.
    match goal with |- (if ?b then _ else _) = _ -> _ => destruct b eqn:E3 end.
    { destruct (ExtModel.utf8 l3) as [r|] eqn:U; [|discriminate]. intros [= <-]. destruct (enc3 a b c ltac:(lia) ltac:(lia) ltac:(lia) ltac:(lia) ltac:(lia)) as (x & S & G & EC).
      destruct (ST l3 r x ltac:(lia) U S) as (cs & F & X & Y). rewrite EC in X. unfold seen in Y at 1. replace (x <? 128) with false in Y by lia. exists cs. auto. }
    destruct l3 as [|d l4]; [discriminate|]. cbn [length] in *.
    match goal with |- (if ?b then _ else _) = _ -> _ => destruct b eqn:E4 end; [|discriminate].
    destruct (ExtModel.utf8 l4) as [r|] eqn:U; [|discriminate]. intros [= <-]. destruct (enc4 a b c d ltac:(lia) ltac:(lia) ltac:(lia) ltac:(lia) ltac:(lia) ltac:(lia)) as (x & S & G & EC).
    destruct (ST l4 r x ltac:(lia) U S) as (cs & F & X & Y). rewrite EC in X. unfold seen in Y at 1. replace (x <? 128) with false in Y by lia. exists cs. auto.
  - intros (cs & F & -> & ->). induction F as [|c cs S _ IH]; [reflexivity|]. cbn [text flat_map map]. fold (text cs). rewrite ext_enc by exact S. rewrite IH. reflexivity.
Qed.
Theorem C20_text : forall l, RtcpModel.utf8 l = true <-> exists cs, Forall scalar cs /\ l = text cs.
Proof.
  intro l. split.
  - assert (forall n l, (length l <= n)%nat -> RtcpModel.utf8 l = true -> exists cs, Forall scalar cs /\ l = text cs) as G; [|eauto].
    clear. induction n as [|n IH]; intros l L.
    { destruct l; [|cbn in L; lia]. exists []. repeat split. constructor. }
    assert (forall l' c, (length l' <= n)%nat -> RtcpModel.utf8 l' = true -> scalar c -> exists cs, Forall scalar cs /\ enc c ++ l' = text cs) as ST.
    { intros l' c LL E S. destruct (IH l' LL E) as (cs & F & ->). exists (c :: cs). repeat split. constructor; assumption. }
    destruct l as [|a l1]; [exists []; repeat split; constructor|]. cbn [RtcpModel.utf8 length] in *. bools.
    destruct ((0 <=? a) && (a <=? 127)) eqn:E1.
    { intro U. destruct (ST l1 a ltac:(lia) U ltac:(red; lia)) as (cs & F & X). unfold enc in X. replace (a <? 128) with true in X by lia. exists cs. auto. }
    destruct l1 as [|b l2]; [discriminate|]. cbn [length] in *.
    destruct ((194 <=? a) && (a <=? 223)) eqn:E2.
    { intro U. apply andb_true_iff in U as [U1 U]. destruct (enc2 a b ltac:(lia) ltac:(lia)) as (c & S & G & EC).
      destruct (ST l2 c ltac:(lia) U S) as (cs & F & X). rewrite EC in X. exists cs. auto. }
    destruct l2 as [|c l3]; [discriminate|]. cbn [length] in *.
    match goal with |- (if ?b then _ else _) = _ -> _ => destruct b eqn:E3 end.
    { intro U. apply andb_true_iff in U as [U1 U]. destruct (enc3 a b c ltac:(lia) ltac:(lia) ltac:(lia) ltac:(lia) ltac:(lia)) as (x & S & G & EC).
      destruct (ST l3 x ltac:(lia) U S) as (cs & F & X). rewrite EC in X. exists cs. auto. }
    destruct l3 as [|d l4]; [discriminate|]. cbn [length] in *. intro U. apply andb_true_iff in U as [U1 U].
    destruct (enc4 a b c d ltac:(lia) ltac:(lia) ltac:(lia) ltac:(lia) ltac:(lia) ltac:(lia)) as (x & S & G & EC).
    destruct (ST l4 x ltac:(lia) U S) as (cs & F & X). rewrite EC in X. exists cs. auto.
  - intros (cs & F & ->). induction F as [|c cs S _ IH]; [reflexivity|]. cbn [text flat_map]. fold (text cs). rewrite rtcp_enc by exact S. exact IH.
Qed.
(** U+20AC, U+1F600 and 'a'. *)
Example C20_text_example : text [8364; 128512; 97] = [226; 130; 172; 240; 159; 152; 128; 97] /\ RtcpModel.utf8 (text [8364; 128512; 97]) = true /\
  RtcpModel.utf8 [192; 128] = false /\ RtcpModel.utf8 [237; 160; 128] = false.
Proof. repeat split. Qed.
Print Assumptions C16_id_text.
Print Assumptions C20_text.

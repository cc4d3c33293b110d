From Verif Require Import Base BaseFacts Brute VlaModel VlaSpec VlaProofs.

Lemma lset_app (P : list Z) x r v : lset (P ++ x :: r) (length P) v = P ++ v :: r.
Proof. induction P as [|p P IH]; [reflexivity|]. cbn [app length lset]. rewrite IH. reflexivity. Qed.

Lemma setb_app (P : list Z) x r i v : i = zlen P -> setb (P ++ x :: r) i v = Ok (P ++ v :: r).
Proof.
  intros ->. unfold setb, zlen. rewrite app_length. cbn [length].
  destruct (Z.ltb_spec (Z.of_nat (length P)) 0); [lia|]. destruct (Z.leb_spec (Z.of_nat (length P + S (length r))) (Z.of_nat (length P))); [lia|].
  cbn [orb]. rewrite Nat2Z.id, lset_app. reflexivity.
Qed.
Lemma orb_at_app (P : list Z) x r i v : i = zlen P -> orb_at (P ++ x :: r) i v = Ok (P ++ Z.lor x v :: r).
Proof.
  intros ->. unfold orb_at, idx.
  assert (nth_error (P ++ x :: r) (Z.to_nat (zlen P)) = Some x) as E.
  { unfold zlen. rewrite Nat2Z.id, nth_error_app2, Nat.sub_diag by lia. reflexivity. }
  unfold zlen at 1. destruct (Z.ltb_spec (Z.of_nat (length P)) 0); [lia|].
  rewrite E. cbn [bind]. apply setb_app. reflexivity.
Qed.

Lemma tl_loop_filter ls : forall tl i b, tl_loop tl ls i b = tl_loop tl (filter active ls) i b.
Proof.
  induction ls as [|l ls IH]; intros; [reflexivity|]. cbn [filter]. destruct (active l) eqn:A.
  - cbn [tl_loop]. rewrite A. cbn [negb]. destruct (tl mod 4 =? 0).
    + destruct (setb b (if 0 <? tl then i + 1 else i) 0) as [b1| |]; cbn [bind]; try reflexivity.
      destruct (orb_at b1 _ _); cbn [bind]; auto.
    + cbn [bind]. destruct (orb_at b _ _); cbn [bind]; auto.
  - cbn [tl_loop]. rewrite A. cbn [negb]. apply IH.
Qed.

Definition cnt (l : spatial) : Z := zlen (sp_tl l) - 1.
Definition lok (l : spatial) : Prop := active l = true /\ 0 <= cnt l < 4.

Lemma tl_step0 tl l ls i P x r : lok l -> tl mod 4 = 0 -> (if 0 <? tl then i + 1 else i) = zlen P ->
  tl_loop tl (l :: ls) i (P ++ x :: r) = tl_loop (tl + 1) ls (zlen P) (P ++ (cnt l * 64) :: r).
Proof.
  intros [A C] M I. cbn [tl_loop]. rewrite A, M, I. cbn [negb Z.eqb]. rewrite setb_app by reflexivity. cbn [bind].
  rewrite orb_at_app by reflexivity. cbn [bind]. do 3 f_equal. fold (cnt l).
  assert (cnt l = 0 \/ cnt l = 1 \/ cnt l = 2 \/ cnt l = 3) as [E|[E|[E|E]]] by lia; rewrite E; reflexivity.
Qed.
Lemma tl_stepk k tl l ls P x r : lok l -> 1 <= k <= 3 -> tl mod 4 = k -> (forall c, 0 <= c < 4 -> Z.lor x (c * 2 ^ (6 - k * 2)) = x + c * 2 ^ (6 - k * 2)) ->
  tl_loop tl (l :: ls) (zlen P) (P ++ x :: r) = tl_loop (tl + 1) ls (zlen P) (P ++ (x + cnt l * 2 ^ (6 - k * 2)) :: r).
Proof.
  intros [A C] K M X. cbn [tl_loop]. rewrite A, M. cbn [negb]. destruct (Z.eqb_spec k 0); [lia|]. cbn [bind].
  rewrite orb_at_app by reflexivity. cbn [bind]. do 3 f_equal. fold (cnt l). rewrite <- X by exact C. f_equal.
  rewrite (Z.mod_small (cnt l)) by lia. apply Z.mod_small.
  assert (k = 1 \/ k = 2 \/ k = 3) as [E|[E|E]] by lia; rewrite E;
    [change (2 ^ (6 - 1 * 2)) with 16|change (2 ^ (6 - 2 * 2)) with 4|change (2 ^ (6 - 3 * 2)) with 1]; lia.
Qed.

Lemma lor1 a : 0 <= a < 4 -> forall c, 0 <= c < 4 -> Z.lor (a * 64) (c * 2 ^ (6 - 1 * 2)) = a * 64 + c * 2 ^ (6 - 1 * 2).
Proof. intros. assert (a = 0 \/ a = 1 \/ a = 2 \/ a = 3) as [E|[E|[E|E]]] by lia; assert (c = 0 \/ c = 1 \/ c = 2 \/ c = 3) as [G|[G|[G|G]]] by lia; subst; reflexivity. Qed.
Lemma lor2 a b : 0 <= a < 4 -> 0 <= b < 4 -> forall c, 0 <= c < 4 -> Z.lor (a * 64 + b * 16) (c * 2 ^ (6 - 2 * 2)) = a * 64 + b * 16 + c * 2 ^ (6 - 2 * 2).
Proof. intros. assert (a = 0 \/ a = 1 \/ a = 2 \/ a = 3) as [E|[E|[E|E]]] by lia; assert (b = 0 \/ b = 1 \/ b = 2 \/ b = 3) as [I|[I|[I|I]]] by lia; assert (c = 0 \/ c = 1 \/ c = 2 \/ c = 3) as [G|[G|[G|G]]] by lia; subst; reflexivity. Qed.
Lemma lor3 a b d : 0 <= a < 4 -> 0 <= b < 4 -> 0 <= d < 4 -> forall c, 0 <= c < 4 -> Z.lor (a * 64 + b * 16 + d * 4) (c * 2 ^ (6 - 3 * 2)) = a * 64 + b * 16 + d * 4 + c * 2 ^ (6 - 3 * 2).
Proof. intros. assert (a = 0 \/ a = 1 \/ a = 2 \/ a = 3) as [E|[E|[E|E]]] by lia; assert (b = 0 \/ b = 1 \/ b = 2 \/ b = 3) as [I|[I|[I|I]]] by lia; assert (c = 0 \/ c = 1 \/ c = 2 \/ c = 3) as [G|[G|[G|G]]] by lia; assert (d = 0 \/ d = 1 \/ d = 2 \/ d = 3) as [J|[J|[J|J]]] by lia; subst; reflexivity. Qed.

Ltac sk k := match goal with |- tl_loop ?t (?l :: ?ls) _ _ = _ => rewrite (tl_stepk k) end.
Lemma tl_loop_ok n : forall ls tl i P r, (length ls <= n)%nat -> Forall lok ls -> 0 <= tl -> tl mod 4 = 0 ->
  (if 0 <? tl then i + 1 else i) = zlen P -> zlen (pack4 (map cnt ls)) <= zlen r ->
  tl_loop tl ls i (P ++ r) = Ok (tl + zlen ls, (if 0 <? tl + zlen ls then zlen P + zlen (pack4 (map cnt ls)) - 1 else i),
     P ++ pack4 (map cnt ls) ++ skipn (length (pack4 (map cnt ls))) r).
Proof.
  assert (forall A (x : A) l, zlen (x :: l) = 1 + zlen l) as ZL by (intros; unfold zlen; cbn [length]; lia).
  assert (forall A (l : list A), 0 <= zlen l) as ZN by (intros; unfold zlen; lia).
  induction n as [|n IH]; intros ls tl i P r Hn F T M I HZ.
  - destruct ls; [|cbn in Hn; lia]. cbn [tl_loop map pack4 length app skipn]. unfold zlen at 1 2 4. cbn [length Z.of_nat]. rewrite Z.add_0_r.
    f_equal. f_equal. f_equal. destruct (0 <? tl); lia.
  - destruct ls as [|l1 ls].
    { cbn [tl_loop map pack4 length app skipn]. unfold zlen at 1 2 4. cbn [length Z.of_nat]. rewrite Z.add_0_r.
      f_equal. f_equal. f_equal. destruct (0 <? tl); lia. }
    destruct r as [|x r]. { destruct ls as [|l2 [|l3 [|l4 ls]]]; cbn [map pack4] in HZ; rewrite ZL in HZ; match type of HZ with 1 + zlen ?q <= _ => pose proof (ZN _ q) end; change (zlen (@nil Z)) with 0 in *; lia. }
    inversion F as [|? ? F1 F']; subst. rewrite tl_step0 by assumption. pose proof (proj2 F1) as C1.
    destruct ls as [|l2 ls].
    { cbn [tl_loop map pack4 length app skipn]. rewrite !ZL. change (zlen (@nil Z)) with 0. change (zlen (@nil spatial)) with 0.
      destruct (Z.ltb_spec 0 (tl + (1 + 0))); [|lia]. f_equal. f_equal. f_equal; lia. }
    inversion F' as [|? ? F2 F'']; subst. pose proof (proj2 F2) as C2.
    rewrite (tl_stepk 1); [|assumption|lia|dlia|apply lor1; assumption]. change (2 ^ (6 - 1 * 2)) with 16.
    destruct ls as [|l3 ls].
    { cbn [tl_loop map pack4 length app skipn]. rewrite !ZL. change (zlen (@nil Z)) with 0. change (zlen (@nil spatial)) with 0.
      destruct (Z.ltb_spec 0 (tl + (1 + (1 + 0)))); [|lia]. f_equal. f_equal. f_equal; lia. }
    inversion F'' as [|? ? F3 F''']; subst. pose proof (proj2 F3) as C3.
    rewrite (tl_stepk 2); [|assumption|lia|dlia|apply lor2; assumption]. change (2 ^ (6 - 2 * 2)) with 4.
    destruct ls as [|l4 ls].
    { cbn [tl_loop map pack4 length app skipn]. rewrite !ZL. change (zlen (@nil Z)) with 0. change (zlen (@nil spatial)) with 0.
      destruct (Z.ltb_spec 0 (tl + (1 + (1 + (1 + 0))))); [|lia]. f_equal. f_equal. f_equal; lia. }
    inversion F''' as [|? ? F4 F5]; subst. pose proof (proj2 F4) as C4.
    rewrite (tl_stepk 3); [|assumption|lia|dlia|apply lor3; assumption]. change (2 ^ (6 - 3 * 2)) with 1. rewrite Z.mul_1_r.
    cbn [map pack4] in HZ |- *. rewrite ZL in HZ. rewrite (ZL _ x r) in HZ.
    set (b := cnt l1 * 64 + cnt l2 * 16 + cnt l3 * 4 + cnt l4).
    change (P ++ b :: r) with (P ++ [b] ++ r). rewrite app_assoc.
    replace (tl + 1 + 1 + 1 + 1) with (tl + 4) by lia.
    assert (zlen (P ++ [b]) = zlen P + 1) as ZP by (unfold zlen; rewrite app_length; cbn [length]; lia).
    rewrite IH; try assumption.
    + rewrite !ZL, ZP. destruct (Z.ltb_spec 0 (tl + 4 + zlen ls)); [|pose proof (ZN _ ls); lia].
      destruct (Z.ltb_spec 0 (tl + (1 + (1 + (1 + (1 + zlen ls)))))); [|pose proof (ZN _ ls); lia].
      cbn [length skipn]. rewrite <- app_assoc. cbn [app]. f_equal. f_equal. f_equal; lia.
    + cbn [length] in Hn. lia.
    + lia.
    + dlia.
    + rewrite ZP. destruct (Z.ltb_spec 0 (tl + 4)); lia.
    + lia.
Qed.

(** ** bytes in sequence *)
Lemma put_ok bs : forall P r i, i = zlen P -> zlen bs <= zlen r -> put bs i (P ++ r) = Ok (P ++ bs ++ skipn (length bs) r).
Proof.
  induction bs as [|b bs IH]; intros P r i I L; [reflexivity|]. unfold zlen in L. cbn [length] in L.
  destruct r as [|x r]; [cbn [length] in L; lia|]. cbn [put]. rewrite setb_app by exact I. cbn [bind length skipn].
  change (P ++ b :: r) with (P ++ [b] ++ r). rewrite app_assoc, IH.
  - rewrite <- app_assoc. reflexivity.
  - unfold zlen. rewrite app_length. cbn [length]. subst i. unfold zlen. lia.
  - unfold zlen. cbn [length] in L. lia.
Qed.

Lemma leb_write_ok fuel : forall v P r i, (1 <= fuel)%nat -> 0 <= v < 2 ^ (7 * Z.of_nat fuel) -> i = zlen P -> zlen (leb fuel v) <= zlen r ->
  leb_write (S fuel) v i (P ++ r) = Ok (i + zlen (leb fuel v), P ++ leb fuel v ++ skipn (length (leb fuel v)) r).
Proof.
  induction fuel as [|f IH]; intros v P r i H1 V I L; [lia|].
  remember (S f) as g. cbn [leb_write]. subst g. cbn [leb] in *. destruct (Z.ltb_spec v 128) as [E|E].
  - destruct r as [|x r]; [unfold zlen in L; cbn [length] in L; lia|]. rewrite setb_app by exact I. reflexivity.
  - assert (f <> 0)%nat as Nf.
    { intros ->. replace (7 * Z.of_nat 1) with 7 in V by lia. change (2 ^ 7) with 128 in V. lia. }
    destruct r as [|x r]; [unfold zlen in L; cbn [length] in L; lia|]. rewrite setb_app by exact I. cbn [bind].
    change (P ++ (v mod 128 + 128) :: r) with (P ++ [v mod 128 + 128] ++ r). rewrite app_assoc.
    rewrite IH; try lia.
    + rewrite <- app_assoc. cbn [app length skipn]. f_equal. f_equal. unfold zlen. cbn [length]. lia.
    + replace (7 * Z.of_nat (S f)) with (7 * Z.of_nat f + 7) in V by lia. rewrite Z.pow_add_r in V by lia. change (2 ^ 7) with 128 in V.
      split; [apply Z.div_pos; lia|]. apply Z.div_lt_upper_bound; lia.
    + unfold zlen in *. rewrite app_length. cbn [length] in *. lia.
    + unfold zlen in *. cbn [length] in *. lia.
Qed.

Lemma skipn_skipn' {A} a b (l : list A) : skipn a (skipn b l) = skipn (b + a) l.
Proof. revert l. induction b; intros [|x l]; cbn; auto. destruct a; reflexivity. Qed.

Lemma rates_ok rs : forall P r i, Forall (fun r => 0 <= r < 2 ^ 63) rs -> i = zlen P -> zlen (flat_map (leb 9) rs) <= zlen r ->
  rates_loop rs i (P ++ r) = Ok (i + zlen (flat_map (leb 9) rs), P ++ flat_map (leb 9) rs ++ skipn (length (flat_map (leb 9) rs)) r).
Proof.
  induction rs as [|v rs IH]; intros P r i F I L.
  - cbn. rewrite Z.add_0_r. reflexivity.
  - inversion F as [|? ? F1 F2]; subst. cbn [rates_loop flat_map] in *. unfold zlen in L. rewrite app_length in L.
    rewrite leb_write_ok; [|lia|exact F1|reflexivity|unfold zlen; lia]. cbn [bind]. rewrite app_assoc. rewrite IH; [|exact F2| |].
    + rewrite skipn_skipn', <- !app_assoc, app_length. f_equal. f_equal. unfold zlen. rewrite app_length. lia.
    + unfold zlen. rewrite app_length. lia.
    + unfold zlen. rewrite skipn_length. lia.
Qed.

Lemma res_loop_ok ls : forall P r i, Forall (fun l => res_ok (sp_res l)) ls -> i = zlen P -> zlen (flat_map res_bytes ls) <= zlen r ->
  res_loop ls i (P ++ r) = Ok (i + zlen (flat_map res_bytes ls), P ++ flat_map res_bytes ls ++ skipn (length (flat_map res_bytes ls)) r).
Proof.
  induction ls as [|l ls IH]; intros P r i F I L.
  - cbn. rewrite Z.add_0_r. reflexivity.
  - inversion F as [|? ? F1 F2]; subst. cbn [res_loop flat_map] in *. unfold res_bytes at 1 3 5. unfold res_bytes at 1 in L.
    destruct (sp_res l) as [[[w h] f]|].
    + cbn [res_ok] in F1. destruct (Z.eqb_spec w 0); [lia|]. destruct (Z.eqb_spec h 0); [lia|]. cbn [orb].
      unfold zlen in L. rewrite app_length in L. rewrite put_ok; [|reflexivity|unfold zlen; lia]. cbn [bind]. rewrite app_assoc.
      assert (length (be16 (w - 1) ++ be16 (h - 1) ++ [f]) = 5)%nat as L5 by reflexivity.
      rewrite L5 in *. set (q := be16 (w - 1) ++ be16 (h - 1) ++ [f]) in *. clearbody q.
      rewrite IH; [|exact F2| |].
      * rewrite skipn_skipn', <- !app_assoc, app_length, L5. f_equal. f_equal. unfold zlen. rewrite app_length, L5. lia.
      * unfold zlen. rewrite app_length, L5. lia.
      * unfold zlen. rewrite skipn_length. lia.
    + apply IH; auto.
Qed.

(** ** the header and the masks *)
Lemma stream_mask_ok s : zlen s <= 4 -> stream_mask 0 s = Ok (bitmask s).
Proof.
  unfold zlen. intro H. do 5 (destruct s as [|? s]; [cbn [bitmask stream_mask]; repeat match goal with |- context [active ?x] => destruct (active x) end; reflexivity|]).
  cbn [length] in H. lia.
Qed.
Lemma masks_ok ss : zlen ss <= 4 -> Forall stream_ok ss -> masks_of 0 ss = Ok (map bitmask ss).
Proof.
  unfold zlen. intros H F. 
  do 5 (destruct ss as [|? ss]; [repeat match goal with H : Forall _ (_ :: _) |- _ => inversion H; clear H; subst end; cbn [masks_of map];
     rewrite ?stream_mask_ok by (match goal with H : stream_ok ?a |- zlen ?a <= 4 => destruct H; assumption end); reflexivity|]).
  cbn [length] in H. lia.
Qed.

Lemma hdr_bits c n m : 0 <= c < 4 -> 1 <= n <= 4 -> 0 <= m < 16 ->
  Z.lor (Z.lor (Z.lor 0 (Z.land c 3 * 64)) (Z.land ((n - 1) mod 256) 3 * 16)) (Z.land m 15) = c * 64 + (n - 1) * 16 + m.
Proof.
  intros. assert (c = 0 \/ c = 1 \/ c = 2 \/ c = 3) as [E|[E|[E|E]]] by lia; assert (n = 1 \/ n = 2 \/ n = 3 \/ n = 4) as [G|[G|[G|G]]] by lia;
  subst; (assert (In m (zseq 0 16)) as I by (apply zseq_in; lia)); cbn in I; repeat (destruct I as [<-|I]; [reflexivity|]); destruct I.
Qed.

Lemma fm_tl ls : flat_map sp_tl ls = flat_map sp_tl (filter active ls).
Proof. induction ls as [|l ls IH]; [reflexivity|]. cbn [filter]. unfold active at 1. cbn [flat_map]. destruct (sp_tl l) eqn:E; cbn [app flat_map]; rewrite ?E, IH; reflexivity. Qed.
Lemma res_loop_filter ls : Forall layer_ok ls -> forall i b, res_loop ls i b = res_loop (filter active ls) i b.
Proof.
  induction 1 as [|l ls H F IH]; intros; [reflexivity|]. cbn [filter]. unfold layer_ok in H. destruct (active l).
  - cbn [res_loop]. destruct (sp_res l) as [[[w h] f]|]; [|apply IH]. destruct ((w =? 0) || (h =? 0)); [reflexivity|]. destruct (put _ i b); cbn [bind]; auto.
  - cbn [res_loop]. rewrite H. apply IH.
Qed.
Lemma forallb_hd ss : forallb (fun m => m =? hd 0 (map bitmask ss)) (map bitmask ss) = forallb (fun s => bitmask s =? bitmask (hd [] ss)) ss.
Proof.
  replace (hd 0 (map bitmask ss)) with (bitmask (hd [] ss)) by (destruct ss; reflexivity). generalize (bitmask (hd [] ss)). intro m.
  induction ss; cbn; congruence.
Qed.

Definition writable (v : vla) : Prop := uniform (v_streams v) = true \/ zlen (v_streams v) <= 2.

(** the tail of the writer: counts, rates and resolutions *)
Lemma write_tail v P r : vla_ok v ->
  let body := pack4 (map cnt (layers v)) ++ flat_map (leb 9) (flat_map sp_tl (layers v)) ++ flat_map res_bytes (layers v) in
  zlen body <= zlen r -> layers v <> [] ->
  (do (tl, index, buf) <- tl_loop 0 (concat (v_streams v)) (zlen P) (P ++ r) ;
      if tl =? 0 then do b <- setb buf index 0 ; Ok (index + 1, b)
      else
        do (index, buf) <- rates_loop (flat_map sp_tl (concat (v_streams v))) (index + 1) buf ;
        res_loop (concat (v_streams v)) index buf)
  = Ok (zlen P + zlen body, P ++ body ++ skipn (length body) r).
Proof.
  intros (C & N & F & Pf) body Z1 NE. unfold body in *. clear body.
  assert (Forall lok (layers v)) as FL.
  { apply Forall_forall. intros l Hl. destruct (in_layers _ _ Hl F) as [A LO]. split; [exact A|].
    unfold layer_ok in LO. rewrite A in LO. destruct LO as (LO & _). unfold active in A. unfold cnt. destruct (sp_tl l); [discriminate|].
    unfold zlen in *. cbn [length] in *. lia. }
  unfold zlen in Z1. rewrite !app_length in Z1.
  rewrite tl_loop_filter. change (filter active (concat (v_streams v))) with (layers v).
  rewrite (tl_loop_ok (length (layers v))); [|lia|exact FL|lia|reflexivity|reflexivity|unfold zlen; lia].
  cbn [bind].
  assert (0 < zlen (layers v)) as LP by (destruct (layers v); [congruence|unfold zlen; cbn [length]; lia]).
  destruct (Z.eqb_spec (0 + zlen (layers v)) 0); [lia|]. destruct (Z.ltb_spec 0 (0 + zlen (layers v))); [|lia].
  rewrite fm_tl. change (filter active (concat (v_streams v))) with (layers v).
  rewrite app_assoc.
  rewrite rates_ok.
  - cbn [bind]. rewrite app_assoc. rewrite res_loop_filter.
    + change (filter active (concat (v_streams v))) with (layers v). rewrite res_loop_ok.
      * rewrite !skipn_skipn', <- !app_assoc, !app_length. apply f_equal, f_equal2; [unfold zlen; rewrite !app_length; lia|].
        do 4 apply f_equal. apply (f_equal (fun k => skipn k r)). lia.
      * apply Forall_forall. intros l Hl. destruct (in_layers _ _ Hl F) as [A LO]. unfold layer_ok in LO. rewrite A in LO. tauto.
      * unfold zlen. rewrite !app_length. lia.
      * unfold zlen. rewrite !skipn_length. lia.
    + apply Forall_concat. eapply Forall_impl; [|exact F]. intros s (_ & A & _). exact A.
  - apply Forall_forall. intros x Hx. apply in_flat_map in Hx as [l [Hl Hx]]. destruct (in_layers _ _ Hl F) as [A LO].
    unfold layer_ok in LO. rewrite A in LO. destruct LO as (_ & LO & _). rewrite Forall_forall in LO. auto.
  - unfold zlen. rewrite app_length. lia.
  - unfold zlen. rewrite skipn_length. lia.
Qed.

Lemma bitmask_zero s : bitmask s = 0 -> filter active s = [].
Proof.
  induction s as [|l s IH]; [reflexivity|]. cbn [bitmask filter]. 
  assert (forall s, 0 <= bitmask s) as NN. { clear. induction s as [|l s IH]; cbn [bitmask]; [lia|]. destruct (active l); cbn [b2z]; lia. }
  specialize (NN s). destruct (active l); cbn [b2z]; intro; [lia|]. apply IH. lia.
Qed.
Lemma bitmask_pos s : bitmask s <> 0 -> filter active s <> [].
Proof.
  induction s as [|l s IH]; [cbn; congruence|]. cbn [bitmask filter]. destruct (active l); [discriminate|]. cbn [b2z]. intro. apply IH. lia.
Qed.

Theorem write_enc v buf : vla_ok v -> writable v -> zlen (enc v) <= zlen buf ->
  write v buf = Ok (zlen (enc v), enc v ++ skipn (length (enc v)) buf).
Proof.
  intros V W L. pose proof V as (C & N & F & Pf). unfold write.
  destruct buf as [|x buf]. { unfold enc, zlen in L. cbn [app length] in L. lia. }
  change (x :: buf) with ([] ++ x :: buf). rewrite setb_app by reflexivity. cbn [bind].
  destruct (Z.eqb_spec (zlen (v_streams v)) 0); [lia|]. rewrite andb_false_r.
  rewrite orb_at_app by reflexivity. cbn [bind]. rewrite orb_at_app by reflexivity. cbn [bind].
  rewrite masks_ok by (try assumption; lia). cbn [bind]. rewrite forallb_hd.
  assert (Forall (fun s => 0 <= bitmask s < 16) (v_streams v)) as FB.
  { eapply Forall_impl; [|exact F]. intros s (A & _). apply bitmask_range. exact A. }
  assert (0 <= bitmask (hd [] (v_streams v)) < 16) as HB.
  { destruct (v_streams v); cbn [hd bitmask]; [lia|]. inversion FB; assumption. }
  destruct (uniform (v_streams v)) eqn:U.
  - assert (layers v <> []) as NE.
    { unfold layers. destruct (uniform_map _ U) as [_ U2]. destruct (v_streams v) as [|s ss]; [cbn in U2; congruence|]. cbn [hd concat] in *.
      rewrite filter_app. apply bitmask_pos in U2. destruct (filter active s); [congruence|discriminate]. }
    pose proof U as U'. unfold uniform in U'. apply andb_true_iff in U' as [-> _].
    replace (hd 0 (map bitmask (v_streams v))) with (bitmask (hd [] (v_streams v))) by (destruct (v_streams v); reflexivity).
    rewrite orb_at_app by reflexivity. cbn [bind]. rewrite hdr_bits by lia.
    cbn [app]. change (?a :: buf) with ([a] ++ buf). unfold enc in *. rewrite U in *. cbn [app] in *.
    set (b0 := v_cur v * 64 + (zlen (v_streams v) - 1) * 16 + bitmask (hd [] (v_streams v))) in *.
    change (b0 :: buf) with ([b0] ++ buf). change (0 + 1) with (zlen [b0]). rewrite write_tail; [|exact V| |exact NE].
    + unfold cnt. cbn [app length skipn]. f_equal. f_equal. unfold zlen. cbn [length]. lia.
    + unfold cnt, zlen in *. cbn [length] in L. lia.
  - unfold writable in W. rewrite U in W. destruct W as [W|W]; [discriminate|].
    destruct (v_streams v) as [|s1 ss] eqn:ES; [cbn in N; lia|]. destruct ss as [|s2 ss].
    + (* one stream: its mask is zero *)
      assert (bitmask s1 = 0) as Z1.
      { unfold uniform in U. cbn [forallb hd] in U. rewrite Z.eqb_refl in U. cbn [andb] in U. apply negb_false_iff, Z.eqb_eq in U. exact U. }
      cbn [forallb hd]. rewrite Z.eqb_refl. cbn [andb map hd]. rewrite orb_at_app by reflexivity. cbn [bind].
      rewrite hdr_bits by (cbn; lia). cbn [concat app]. rewrite app_nil_r, tl_loop_filter, bitmask_zero by exact Z1. cbn [tl_loop bind Z.eqb].
      unfold enc in *. rewrite ES, U in *. unfold layers in *. rewrite ES in *. cbn [concat map] in *. rewrite app_nil_r in *. rewrite bitmask_zero in * by exact Z1.
      rewrite Z1 in *. cbn [app map pack2 pack4 flat_map length skipn] in *.
      destruct buf as [|y buf]; [unfold zlen in L; cbn in L; lia|]. 
      match goal with |- context [setb (?a :: y :: buf) _ _] => change (a :: y :: buf) with ([a] ++ y :: buf) end. rewrite setb_app by reflexivity. cbn [bind].
      reflexivity.
    + destruct ss; [|unfold zlen in W; cbn [length] in W; lia]. inversion FB as [|? ? B1 B2']; subst. inversion B2' as [|? ? B2 _]; subst.
      unfold uniform in U. cbn [forallb hd] in *. rewrite Z.eqb_refl in *. cbn [andb map hd] in *. rewrite andb_true_r in *.
      destruct (Z.eqb_spec (bitmask s2) (bitmask s1)) as [E|E].
      * cbn [andb] in U. apply negb_false_iff, Z.eqb_eq in U. rename U into Z1. rewrite Z1 in E. rename E into Z2.
        rewrite orb_at_app by reflexivity. cbn [bind].
        rewrite hdr_bits by (cbn; lia). cbn [concat app]. rewrite app_nil_r, tl_loop_filter, filter_app, !bitmask_zero by assumption. cbn [app tl_loop bind Z.eqb].
        assert (enc v = [v_cur v * 64 + (2 - 1) * 16 + 0; 0]) as EE.
        { unfold enc, layers. rewrite ES. unfold uniform. cbn [forallb hd concat]. rewrite app_nil_r, filter_app, !bitmask_zero by assumption.
          cbn [map]. rewrite Z1, Z2. reflexivity. }
        rewrite EE in *. destruct buf as [|y buf]; [unfold zlen in L; cbn in L; lia|].
        match goal with |- context [setb (?a :: y :: buf) _ _] => change (a :: y :: buf) with ([a] ++ y :: buf) end. rewrite setb_app by reflexivity. cbn [bind].
        rewrite Z1. reflexivity.
      * assert (uniform (v_streams v) = false) as U3.
        { rewrite ES. unfold uniform. cbn [forallb hd]. rewrite Z.eqb_refl. destruct (Z.eqb_spec (bitmask s2) (bitmask s1)); [congruence|reflexivity]. }
        destruct buf as [|y buf].
        { exfalso. unfold enc in L. rewrite U3, ES in L. cbn [map pack2 app] in L. unfold zlen in L. cbn [length] in L. lia. }
        cbn [mask_loop]. change (0 mod 2 =? 0) with true. cbv iota. cbn [Z.eqb Pos.eqb].
        match goal with |- context [setb ([] ++ ?a :: y :: buf) _ _] => set (h := a); change ([] ++ h :: y :: buf) with ([h] ++ y :: buf) end.
        rewrite setb_app by reflexivity. cbn [bind]. rewrite orb_at_app by reflexivity. cbn [bind].
        change ((0 + 1) mod 2 =? 0) with false. cbv iota. cbn [Z.eqb bind]. rewrite orb_at_app by reflexivity. cbn [bind].
        change (zlen [bitmask s1; bitmask s2] mod 2 =? 0) with true. cbn [negb bind].
        replace (Z.lor (Z.lor 0 (Z.land (bitmask s1) 15 * 2 ^ 4)) (Z.land (bitmask s2) 15 * 2 ^ 0)) with (bitmask s1 * 16 + bitmask s2).
        2: { clear - B1 B2. revert B1 B2. generalize (bitmask s1) (bitmask s2). intros a b Ha Hb.
             assert (In a (zseq 0 16)) as I by (apply zseq_in; lia). assert (In b (zseq 0 16)) as J by (apply zseq_in; lia). clear Ha Hb.
             cbn in I, J. repeat (destruct I as [<-|I]; [repeat (destruct J as [<-|J]; [reflexivity|]); destruct J|]). destruct I. }
        assert (h = v_cur v * 64 + (2 - 1) * 16 + 0) as HH.
        { unfold h. rewrite <- (hdr_bits (v_cur v) 2 0) by lia. change (zlen [s1; s2]) with 2. rewrite Z.lor_0_r. reflexivity. }
        set (m := bitmask s1 * 16 + bitmask s2). change ([h] ++ m :: buf) with ([h; m] ++ buf). change (0 + 1 + 1) with (zlen [h; m]).
        rewrite <- ES. rewrite write_tail; [|exact V| |].
        -- unfold enc. rewrite U3, HH, ES. unfold cnt. cbn [map pack2 app length skipn]. fold m. f_equal. f_equal. unfold zlen. cbn [length]. lia.
        -- unfold enc in L. rewrite U3, ES in L. cbn [map pack2 app] in L. unfold cnt, zlen in *. cbn [length] in L. lia.
        -- unfold layers. rewrite ES. cbn [concat]. rewrite app_nil_r, filter_app. intro X. apply app_eq_nil in X as [X1 X2].
           apply E. destruct (Z.eq_dec (bitmask s1) 0) as [Q|Q]; [|exfalso; exact (bitmask_pos _ Q X1)].
           destruct (Z.eq_dec (bitmask s2) 0) as [Q2|Q2]; [congruence|exfalso; exact (bitmask_pos _ Q2 X2)].
Qed.

From Verif Require Import Base BaseFacts Brute BufRxSpec Vp8Model Vp8Spec Vp8Proofs Av1Model Av1Spec Av1Proofs.

Definition ahead (z y n : bool) (w : Z) : Z := b2z z * 128 + b2z y * 64 + w * 16 + b2z n * 8.
Lemma ahead_facts z y n w : 0 <= w < 4 ->
  bit (ahead z y n w) 128 = z /\ bit (ahead z y n w) 64 = y /\ Z.shiftr (Z.land (ahead z y n w) 48) 4 = w /\ bit (ahead z y n w) 8 = n /\ byte_ok (ahead z y n w).
Proof.
  intro W. assert (w = 0 \/ w = 1 \/ w = 2 \/ w = 3) as [-> | [-> | [-> | ->]]] by lia; destruct z, y, n; cbn; unfold byte_ok; repeat split; lia.
Qed.

Lemma outs_app a b : outs (a ++ b) = outs a ++ outs b.
Proof. unfold outs. rewrite map_app, concat_app. reflexivity. Qed.
Lemma outs_delivered us : outs us = delivered (map snd us).
Proof.
  unfold outs, delivered. induction us as [|u us IH]; [reflexivity|]. cbn [map filter concat]. rewrite IH. unfold unit_out.
  destruct (sendable (snd u)); [reflexivity|]. reflexivity.
Qed.

Definition holds (s : avd) (acc : option (list Z)) : Prop := match acc with None => True | Some p => s = mkAv p (zlen p) /\ p <> [] end.
Definition some {A} (o : option A) : bool := match o with Some _ => true | None => false end.

Lemma last_cons2 {A} (x y : A) l d : last (x :: y :: l) d = last (y :: l) d. Proof. reflexivity. Qed.
Lemma dep_pkt k acc s out x us : pkt_ok k -> holds s acc -> k_z k = some acc ->
  (if k_y k then removelast (joined acc (k_elems k)) else joined acc (k_elems k)) = map enc_u us -> Forall (fun u => aobu_ok (snd u)) us ->
  exists s', av1_dep s (enc_pkt k) out x = (s', Some (out ++ outs us, Some (k_n k || match x with Some k => k | None => false end))) /\
    holds s' (if k_y k then Some (last (joined acc (k_elems k)) []) else None).
Proof.
  intros (NE & F & W & NZ) H Z E U. unfold av1_dep, enc_pkt. fold (ahead (k_z k) (k_y k) (k_n k) (k_w k)).
  assert (0 <= k_w k < 4) as WB by (pose proof (zlen_nonneg (k_elems k)); lia).
  destruct (ahead_facts (k_z k) (k_y k) (k_n k) (k_w k) WB) as (H1 & H2 & H3 & H4 & H5).
  unfold av1_depacketize. rewrite H1, H2, H3, H4.
  set (s0 := if negb (k_z k) || k_n k then avd0 else s).
  assert (ob s0 = match acc with Some p => p | None => [] end /\ olen s0 = zlen (ob s0)) as (OB & OL).
  { unfold s0. destruct acc as [p|]; cbn in Z; rewrite Z in *.
    - destruct (k_n k); [specialize (NZ eq_refl); discriminate|]. cbn [negb orb]. destruct H as (-> & _). cbn [ob olen]. auto.
    - cbn. auto. }
  pose proof (loop_elems (k_elems k) (length (enc_elems (k_w k =? 0) (k_elems k))) (k_z k) (k_y k) (k_w k) 0 s0 out (k_w k =? 0) us) as L.
  cbv zeta in L. rewrite L; clear L; try assumption; try lia.
  - eexists. split; [reflexivity|]. destruct (k_y k); [|exact I]. cbn [holds]. destruct (k_elems k) as [|e es]; [congruence|]. rewrite OB. 
    assert (joined acc (e :: es) = ((match acc with Some p => p | None => [] end) ++ e) :: es) as -> by (destruct acc; reflexivity).
    split; [reflexivity|]. inversion F as [|? ? (Fe & _) Fr]; subst. clear -Fe Fr. destruct es as [|e2 es]; [destruct acc as [[|]|]; cbn; try exact Fe; discriminate|].
    rewrite last_cons2. clear Fe. revert e2 Fr. induction es as [|e3 es IH]; intros e2 Fr; inversion Fr as [|? ? (Fe & _) Fs]; subst; [exact Fe|]. rewrite last_cons2. apply IH. exact Fs.
  - eapply Forall_impl; [|exact F]. intros e (A & B & C). auto.
  - destruct (k_w k =? 0) eqn:Q; lia.
  - rewrite OB. destruct acc as [p|]; cbn in Z; rewrite Z; [|reflexivity]. destruct H as (_ & H). destruct p; [congruence|]. rewrite zlen_cons. pose proof (zlen_nonneg p). 
    destruct (zlen p + 1 =? 0) eqn:Q; [lia|]. rewrite ?andb_false_r. destruct (1 + zlen p =? 0) eqn:Q2; [lia|]. rewrite ?andb_false_r. reflexivity.
  - rewrite <- E, OB. destruct (k_elems k); [congruence|]. destruct acc; reflexivity.
Qed.

Lemma feed_pkts : forall ks acc s out x us, Forall pkt_ok ks -> holds s acc -> assemble acc ks = Some (map enc_u us, None) -> Forall (fun u => aobu_ok (snd u)) us -> ks <> [] ->
  exists s', feed av1_dep s (map enc_pkt ks) out x = (s', Some (out ++ outs us, Some (existsb k_n ks || match x with Some k => k | None => false end))).
Proof.
  induction ks as [|k ks IH]; intros acc s out x us F H A U NE; [congruence|]. inversion F as [|? ? F1 F2]; subst. cbn [assemble] in A.
  destruct (Bool.eqb (k_z k) _) eqn:Z; [|discriminate]. apply Bool.eqb_prop in Z. fold (some acc) in Z.
  set (es := joined acc (k_elems k)) in *.
  set (us1 := if k_y k then removelast es else es). set (acc1 := if k_y k then Some (last es []) else None).
  assert ((if k_y k then (removelast es, Some (last es [])) else (es, None)) = (us1, acc1)) as Q by (unfold us1, acc1; destruct (k_y k); reflexivity). rewrite Q in A. clear Q.
  destruct (assemble acc1 ks) as [[vs a]|] eqn:A2; [|discriminate]. injection A as A ->. symmetry in A. apply map_eq_app in A. destruct A as (ua & ub & -> & Ea & Eb).
  apply Forall_app in U. destruct U as (Ua & Ub).
  destruct (dep_pkt k acc s out x ua F1 H Z (eq_sym Ea) Ua) as (s1 & D & H1). cbn [map feed]. rewrite D. fold es in H1. fold acc1 in H1.
  destruct ks as [|k2 ks].
  - cbn [assemble] in A2. injection A2 as <- A2. apply map_eq_nil in Eb. subst ub. exists s1. cbn [map feed existsb]. rewrite app_nil_r, orb_false_r. reflexivity.
  - subst vs. destruct (IH acc1 s1 (out ++ outs ua) (Some (k_n k || match x with Some k => k | None => false end)) ub F2 H1 A2 Ub ltac:(discriminate)) as (s' & E).
    exists s'. rewrite E. f_equal. f_equal. f_equal; [rewrite outs_app, app_assoc; reflexivity|]. f_equal. cbn [existsb]. destruct (k_n k), (k_n k2), (existsb k_n ks), x as [[]|]; reflexivity.
Qed.

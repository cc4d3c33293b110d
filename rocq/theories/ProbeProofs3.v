From Coq Require Import QArith Lia.
From Verif Require Import Base BaseFacts ProbeModel ProbeSpec ProbeProofs ProbeProofs2.
Open Scope Z_scope.

Section P.
Variables (B : Type) (A : arith B) (FAR : Z).
Hypothesis L : laws A.
Notation hist := (list (bop B * bout B)).
Notation len l := (length (news A l None)).

Definition ldi (h : hist) (rs : list (B * cause)) (l : lastp B) (pend : list (cfg B)) (est : option B) : Prop :=
  exists ha alr e c y hb n,
    let x := (BTimeout (l_when l) true alr e c, y) in
    h = ha ++ x :: hb /\ Forall (fun x => ~ off x) hb /\ n = len (R B (ha ++ [x])) /\ (n <= len rs)%nat
    /\ (est = l_was l \/ (n < len rs)%nat)
    /\ ((pend = [] /\ exists gs0 g1, probes (x :: hb) = gs0 ++ [g1] /\ (length gs0 <= 1)%nat
           /\ Forall (fun g => c_kind g = l_kind l) (gs0 ++ [g1]) /\ l_further l = mul A (c_rate g1) (7 # 10))
        \/ (exists g g1, pend = [g] /\ probes (x :: hb) = [g1] /\ c_kind g1 = c_kind g /\ c_kind g = l_kind l
              /\ l_further l = mul A (c_rate g) (7 # 10)
              /\ warranted A ha (fst x) g /\ spaced A ha (fst x) (l_when l) g)).
Definition lst (h : hist) (rs : list (B * cause)) (p : pctl B) : Prop :=
  match p_last p with None => none_yet h /\ p_pend p = [] | Some l => ldi h rs l (p_pend p) (p_est p) end.

Record inv (h : hist) (s : bwe B) : Prop := mkInv {
  i_des : b_desired s = desired h (ZERO A);
  i_j : J B A (R B h) s;
  i_pest : forall v, p_pest (b_pc s) = Some v -> In v (map fst (R B h));
  i_drop : forall t v, p_drop (b_pc s) = Some (t, v) -> In v (map fst (R B h));
  i_off : p_en (b_pc s) = false -> p_pend (b_pc s) = [] /\ p_last (b_pc s) = None;
  i_lst : lst h (R B h) (b_pc s);
  i_alr : p_alr0 (b_pc s) <> None -> p_alr1 (b_pc s) = None }.

Lemma lst_reports : forall h rs rs' p p', lst h rs p -> p_last p' = p_last p -> p_pend p' = p_pend p ->
  (p_est p' = p_est p \/ (len rs < len rs')%nat) -> (len rs <= len rs')%nat -> lst h rs' p'.
Proof.
  intros h rs rs' p p' H E1 E2 E3 E4. unfold lst in *. rewrite E1, E2. destruct (p_last p) as [l|]; [|exact H].
  destruct H as (ha & alr & e & c & y & hb & n & H1 & H2 & H3 & H4 & H5 & H6).
  exists ha, alr, e, c, y, hb, n. cbv zeta. split; [exact H1|]. split; [exact H2|]. split; [exact H3|].
  split; [lia|]. split; [|exact H6]. destruct E3 as [E3|E3]; [rewrite E3; destruct H5; [left; assumption|right; lia]|right; lia].
Qed.
Lemma probes_app : forall h1 h2 : hist, probes (h1 ++ h2) = probes h1 ++ probes h2.
Proof. intros. unfold probes. apply flat_map_app. Qed.
Lemma probes_cons : forall (x : bop B * bout B) h, probes (x :: h) = probes [x] ++ probes h.
Proof. intros x h. exact (probes_app [x] h). Qed.
Lemma none_snoc : forall (h : hist) x, none_yet h -> ~ off x -> probes [x] = [] -> none_yet (h ++ [x]).
Proof.
  intros h x (ha & hb & -> & F & P & E) N Px. exists ha, (hb ++ [x]). rewrite app_assoc. split; [reflexivity|].
  split; [apply Forall_app; split; [exact F|constructor; [exact N|constructor]]|].
  rewrite probes_app, P, Px. split; [reflexivity|exact E].
Qed.
Lemma none_off : forall (h : hist) x, off x -> none_yet (h ++ [x]).
Proof.
  intros h x H. exists (h ++ [x]), []. rewrite app_nil_r. split; [reflexivity|]. split; [constructor|].
  split; [reflexivity|]. right. eauto.
Qed.
Lemma lst_snoc : forall h rs p x p', lst h rs p -> ~ off x -> probes [x] = [] -> p_last p' = p_last p ->
  p_pend p' = p_pend p -> p_est p' = p_est p -> lst (h ++ [x]) rs p'.
Proof.
  intros h rs p x p' H N Px E1 E2 E3. unfold lst in *. rewrite E1, E2, E3. destruct (p_last p) as [l|].
  2: { destruct H. split; [apply none_snoc; auto|assumption]. }
  destruct H as (ha & alr & e & c & y & hb & n & H1 & H2 & H3 & H4 & H5 & H6).
  exists ha, alr, e, c, y, (hb ++ [x]), n. cbv zeta in *. split; [rewrite H1, <- app_assoc; reflexivity|].
  split; [apply Forall_app; split; [exact H2|constructor; [exact N|constructor]]|].
  split; [exact H3|]. split; [exact H4|]. split; [exact H5|].
  assert (Ep : probes ((BTimeout (l_when l) true alr e c, y) :: hb ++ [x]) = probes ((BTimeout (l_when l) true alr e c, y) :: hb)).
  { rewrite app_comm_cons, probes_app, Px, app_nil_r. reflexivity. }
  rewrite Ep. exact H6.
Qed.
Lemma ldi_last : forall h rs l est, ldi h rs l [] est ->
  exists gs0 g1 n, last_decision A h (l_when l) (gs0 ++ [g1]) n /\ Forall (fun g => c_kind g = l_kind l) (gs0 ++ [g1])
    /\ l_further l = mul A (c_rate g1) (7 # 10) /\ (est = l_was l \/ (n < len rs)%nat).
Proof.
  intros h rs l est (ha & alr & e & c & y & hb & n & H1 & H2 & H3 & H4 & H5 & [(_ & gs0 & g1 & P1 & P2 & P3 & P4)|(g & g1 & D & _)]);
    [|discriminate].
  exists gs0, g1, n. split; [|auto].
  exists ha, alr, e, c, y, hb. split; [exact H1|]. split; [exact H2|]. split; [exact P1|].
  split; [destruct gs0; discriminate|]. split; [rewrite app_length; cbn [length]; lia|]. exact H3.
Qed.

(** From the state to the history. *)
Lemma good_just : forall h rs p now alr eo c e g,
  rs = R B h ++ reports (BTimeout now true alr eo c) ->
  lst h rs p -> p_pend p = [] -> p_est p = Some e -> In e (map fst rs) -> p_cs p = cause_of A rs -> permits (p_cs p) ->
  (forall v, p_pest p = Some v -> In v (map fst rs)) -> (forall t v, p_drop p = Some (t, v) -> In v (map fst rs)) ->
  in_alr p = match alr with Some _ => true | None => false end ->
  good B A p now (desired h (ZERO A)) e g ->
  warranted A h (BTimeout now true alr eo c) g /\ spaced A h (BTimeout now true alr eo c) now g.
Proof.
  intros h rs p now alr eo c e g Ers Hl Hp He Hin Hcs Pm Hpe Hdr Ha (G1 & (v & r & V & G2 & G3) & G4 & G5). split.
  - cbn [warranted]. change (reported (since_reset h [])) with (R B h). rewrite <- Ers. rewrite <- Hcs.
    split; [exact Pm|]. split; [exact G1|]. split.
    { exists v, r. split; [|split; assumption]. destruct V as [->|[V|(t & V)]]; eauto. }
    destruct (c_kind g); cbn [kind_rule]; auto.
    + destruct G4 as (G4 & G6). rewrite Ha in G4. split; [destruct alr; discriminate|eauto].
    + rewrite Ha in G4. destruct alr; discriminate.
    + destruct G4 as (G4 & G6). rewrite Ha in G4. split; [destruct alr; [discriminate|reflexivity]|eauto].
  - unfold spaced. change (reported (since_reset h [])) with (R B h). rewrite <- Ers. unfold lst in Hl. rewrite Hp in Hl.
    assert (Gen : p_last p = None -> none_yet h) by (intros X; rewrite X in Hl; apply Hl).
    assert (Gen2 : forall l, p_last p = Some l -> exists gs n, last_decision A h (l_when l) gs n
              /\ Forall (fun g => c_kind g = l_kind l) gs).
    { intros l X. rewrite X in Hl. destruct (ldi_last _ _ _ _ Hl) as (gs0 & g1 & n & D & F & _). eauto. }
    destruct (c_kind g) eqn:Ek.
    + auto.
    + destruct G5 as (l & G5 & G6 & G7). rewrite G5 in Hl. destruct (ldi_last _ _ _ _ Hl) as (gs0 & g1 & n & D & F & Fu & X).
      exists (l_when l), gs0, g1, n. split; [exact D|]. split; [exists e; rewrite <- Fu; auto|].
      destruct G7 as [G7|G7]; [|auto]. right. destruct X as [X|X]; [|exact X].
      rewrite <- X, He in G7. cbn [beq_opt] in G7. rewrite (eqb_refl L) in G7. discriminate.
    + destruct (p_last p) as [l|]; [right|left; auto]. destruct (Gen2 l eq_refl) as (gs & n & D & F).
      exists (l_when l), gs, n. split; [exact D|]. intros X. apply (G5 l eq_refl).
      apply Exists_exists in X. destruct X as (g' & I & X). rewrite Forall_forall in F. rewrite <- (F g' I). exact X.
    + destruct (p_last p) as [l|]; [right|left; auto]. destruct (Gen2 l eq_refl) as (gs & n & D & F).
      exists (l_when l), gs, n. split; [exact D|]. exact (G5 l eq_refl).
    + destruct (p_last p) as [l|]; [right|left; auto]. destruct (Gen2 l eq_refl) as (gs & n & D & F).
      exists (l_when l), gs, n. split; [exact D|]. exact (G5 l eq_refl).
    + exact I.
Qed.
End P.

(** What a user of bandwidth estimation may expect of probing, said about the calls made and the answers given. *)
From Coq Require Import QArith.
From Verif Require Import Base ProbeModel.
Open Scope Z_scope.

(** What is asked of the arithmetic: on f64 without NaN these hold. *)
Record laws {B} (A : arith B) : Prop := mkLaws {
  eqb_refl : forall b, eqb A b b = true;
  le_refl : forall b, le A b b = true;
  min_le_l : forall a b, le A (bmin A a b) a = true;
  min_le_r : forall a b, le A (bmin A a b) b = true }.
Arguments eqb_refl {B A}. Arguments le_refl {B A}. Arguments min_le_l {B A}. Arguments min_le_r {B A}.

Section Spec.
Variables (B : Type) (A : arith B).
Local Notation hist := (list (bop B * bout B)).

(** The desired bitrate: the last one set. *)
Fixpoint desired (h : hist) (d : B) : B :=
  match h with
  | [] => d
  | (BDesired v, _) :: r => desired r v
  | _ :: r => desired r d
  end.
(** The estimates that the controllers reported, with what limits them. *)
Definition reports (o : bop B) : list (B * cause) :=
  match o with
  | BTimeout _ _ _ (Some e) c => [(e, c)]
  | BUpdate _ true (Some e) c => [(e, c)]
  | _ => []
  end.
Definition reported (h : hist) : list (B * cause) := flat_map (fun x => reports (fst x)) h.
(** The reports whose estimate differs from the one before them; [last]: the one before them all. *)
Fixpoint news (l : list (B * cause)) (last : option B) : list (B * cause) :=
  match l with
  | [] => []
  | (e, c) :: r => if beq_opt A last (Some e) then news r last else (e, c) :: news r (Some e)
  end.
(** What limits the estimate now. *)
Definition cause_of (l : list (B * cause)) : cause :=
  match rev (news l None) with (_, c) :: _ => c | [] => DelayLimited end.
Definition permits (c : cause) : Prop := c = LossIncreasing \/ c = DelayLimited.

Definition is_reset (o : bop B) : Prop := o = BReset.
(** Calls after which probing starts anew: no probing allowed, or a reset. *)
Definition off (x : bop B * bout B) : Prop :=
  match fst x with BTimeout _ false _ _ _ => True | BReset => True | _ => False end.
Definition probes (h : hist) : list (cfg B) :=
  flat_map (fun x => match snd x with OProbe (Some g) _ => [g] | _ => [] end) h.
Definition results (h : hist) : list (cfg B * B) :=
  flat_map (fun x => match snd x with OResults l => l | _ => [] end) h.
(** What was called since the last reset. *)
Fixpoint since_reset (h cur : hist) : hist :=
  match h with
  | [] => cur
  | (BReset, _) :: r => since_reset r []
  | x :: r => since_reset r (cur ++ [x])
  end.

(** The rate asked for, before the cap, follows the estimate [v] (or the desired rate [d]) by kind of probe. *)
Definition rate_rule (k : kind) (d v r : B) : Prop :=
  match k with
  | KInitial => r = mul A v 3 \/ r = mul A v 6
  | KExponential => r = mul A v 2 \/ r = mul A v ((3 # 2) * (105 # 100))
  | KIncreaseAlr => r = bmin A (mul A d 1) (mul A v 2) \/ r = mul A d 2 /\ le A (mul A d 2) (mul A v 2) = true
  | KPeriodicAlr => r = mul A d 2
  | KLargeDrop => r = mul A v (85 # 100)
  | KStagnant => r = mul A v 2
  end.
(** When a kind of probe is for: [alr]: since when the application limits the rate. *)
Definition kind_rule (k : kind) (alr : option Z) (d : B) (ests : list B) : Prop :=
  match k with
  | KIncreaseAlr => alr <> None /\ exists e, In e ests /\ le A d e = false
  | KPeriodicAlr => alr <> None
  | KStagnant => alr = None /\ exists e, In e ests /\ le A d e = false
  | _ => True
  end.

(** The probe [g] may be decided at a call [o] after [h]. *)
Definition warranted (h : hist) (o : bop B) (g : cfg B) : Prop :=
  match o with
  | BTimeout now true alr e c =>
      let rs := reported (since_reset h []) ++ reports o in
      let d := desired h (ZERO A) in
      permits (cause_of rs)
      /\ lt A (c_rate g) (KB5 A) = false
      /\ (exists v r, In v (map fst rs) /\ rate_rule (c_kind g) d v r /\ c_rate g = bmin A r (mul A d 2))
      /\ kind_rule (c_kind g) alr d (map fst rs)
  | _ => False
  end.

(** The last decision before the end of [h], with no [off] since: at [t], the probes of that decision, and how
    many new estimates had been reported by then. *)
Definition last_decision (h : hist) (t : Z) (gs : list (cfg B)) (n : nat) : Prop :=
  exists ha alr e c y hb,
    h = ha ++ (BTimeout t true alr e c, y) :: hb /\ Forall (fun x => ~ off x) hb
    /\ probes ((BTimeout t true alr e c, y) :: hb) = gs /\ gs <> [] /\ (length gs <= 2)%nat
    /\ n = length (news (reported (since_reset (ha ++ [(BTimeout t true alr e c, y)]) [])) None).
(** No probe was asked for since the last [off]. *)
Definition none_yet (h : hist) : Prop :=
  exists ha hb, h = ha ++ hb /\ Forall (fun x => ~ off x) hb /\ probes hb = []
    /\ (ha = [] \/ exists h' x, ha = h' ++ [x] /\ off x).

(** The distance from the decision before; [o] is the call after [h]. *)
Definition spaced (h : hist) (o : bop B) (now : Z) (g : cfg B) : Prop :=
  let rs := reported (since_reset h []) ++ reports o in
  match c_kind g with
  | KInitial => none_yet h
  | KPeriodicAlr | KLargeDrop =>
      none_yet h \/ exists t gs n, last_decision h t gs n /\ 5 * SEC <= now - t
  | KExponential =>
      exists t gs g1 n, last_decision h t (gs ++ [g1]) n
        /\ (exists v, In v (map fst rs) /\ lt A v (mul A (c_rate g1) (7 # 10)) = false)
        /\ (SEC <= now - t \/ (n < length (news rs None))%nat)
  | KIncreaseAlr =>
      none_yet h \/ exists t gs n, last_decision h t gs n /\
        (Exists (fun g => is_ini (c_kind g) = true) gs -> SEC < now - t)
  | KStagnant => True
  end.
(** Why the answer to [o] after [h] may be the probe [g]: it is decided now, or it is the second probe of the
    decision that the last probe answered came from. *)
Definition justified (h : hist) (o : bop B) (g : cfg B) : Prop :=
  match o with
  | BTimeout now true alr e c =>
      (warranted h o g /\ spaced h o now g)
      \/ exists ha t alr0 e0 c0 y hb g1,
           h = ha ++ (BTimeout t true alr0 e0 c0, y) :: hb /\ Forall (fun x => ~ off x) hb
           /\ probes ((BTimeout t true alr0 e0 c0, y) :: hb) = [g1] /\ c_kind g1 = c_kind g
           /\ warranted ha (BTimeout t true alr0 e0 c0) g /\ spaced ha (BTimeout t true alr0 e0 c0) t g
  | _ => False
  end.

(** ** Results *)
(** The records fed back in [h]; those of received packets of cluster [id]. *)
Definition fed (h : hist) : list srec := flat_map (fun x => match fst x with BUpdate rs _ _ _ => rs | _ => [] end) h.
Definition heard (id : Z) (rs : list srec) : list srec :=
  filter (fun r => match r_cluster r, r_recv r with Some i, Some _ => i =? id | _, _ => false end) rs.
Definition recvt (r : srec) : Z := match r_recv r with Some t => t | None => 0 end.
Definition total (l : list srec) : Z := fold_right (fun r n => r_size r + n) 0 l.
(** [m] is a record of [l] with the least (greatest) [f]. *)
Definition least (f : srec -> Z) (l : list srec) (m : srec) : Prop := In m l /\ forall r, In r l -> f m <= f r.
Definition greatest (f : srec -> Z) (l : list srec) (m : srec) : Prop := In m l /\ forall r, In r l -> f r <= f m.
(** [b] is what the received packets [l] of the probe [g] say: at least four of them with 80 % of the bytes asked
    for, sent within a second and received within a second; the rate of sending is without the last packet, the rate of
    receiving without the first. *)
Definition measured (g : cfg B) (l : list srec) (b : B) : Prop :=
  4 <= zlen l /\ min_bytes A (c_rate g) <= total l /\
  exists s1 s2 r1 r2, least r_send l s1 /\ greatest r_send l s2 /\ least recvt l r1 /\ greatest recvt l r2 /\
    let si := r_send s2 - r_send s1 in let ri := recvt r2 - recvt r1 in
    0 < si <= SEC /\ 0 < ri <= SEC /\ r_size s2 < total l /\ r_size r1 < total l /\
    let sr := per A (total l - r_size s2) si in let rr := per A (total l - r_size r1) ri in
    ratio_gt2 A rr sr = false /\ b = if lt A rr (mul A sr (9 # 10)) then mul A rr (95 # 100) else bmin A sr rr.
(** A result for [g] at a feedback [fb] after [h]: its probe was started, nothing turned probing off since, and all that
    was heard of it since then gives [b]. *)
Definition due_result (h : hist) (fb : list srec) (g : cfg B) (b : B) : Prop :=
  exists ha t alr e c hb, h = ha ++ (BTimeout t true alr e c, OProbe (Some g) true) :: hb
    /\ Forall (fun x => ~ off x) hb /\ measured g (heard (c_id g) (fed hb ++ fb)) b.
End Spec.
Arguments desired {B}. Arguments reports {B}. Arguments reported {B}. Arguments news {B}. Arguments cause_of {B}. Arguments off {B}.
Arguments probes {B}. Arguments results {B}. Arguments since_reset {B}. Arguments rate_rule {B}. Arguments kind_rule {B}.
Arguments warranted {B}. Arguments last_decision {B}. Arguments none_yet {B}. Arguments spaced {B}.
Arguments justified {B}.

Arguments fed {B}. Arguments measured {B}. Arguments due_result {B}.

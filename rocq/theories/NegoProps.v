(** C33 (media directions) and C38 (SDP offer/answer keeps two peers' m-lines in agreement). *)
From Coq Require Import List ZArith Bool Lia String.
From Verif Require Import Base BaseFacts NegoModel NegoSpec NegoProofs NegoProofs2 NegoProofs3 NegoProofs4 NegoProofs5.
Import ListNotations.
Open Scope Z_scope.

(** * C33 *)

(** Inverting swaps sending and receiving, twice gives the same; the four words survive writing. *)
Theorem C33_direction_algebra : forall d,
  invert (invert d) = d /\
  (sends (invert d) <-> receives d) /\ (receives (invert d) <-> sends d) /\
  (is_sending d = true <-> sends d) /\ (is_receiving d = true <-> receives d) /\
  dir_of_string (dir_to_string d) = d.
Proof. intro d. destruct d; unfold sends, receives; cbn; intuition congruence. Qed.
Print Assumptions C33_direction_algebra.

(** The only words that are read as something other than inactive are the other three. *)
Theorem C33_unknown_word_inactive : forall w,
  dir_of_string w <> Inactive -> exists d, w = dir_to_string d /\ dir_of_string w = d.
Proof.
  intro w. unfold dir_of_string.
  destruct (String.eqb_spec w "sendonly") as [->|]; [exists SendOnly; auto|].
  destruct (String.eqb_spec w "recvonly") as [->|]; [exists RecvOnly; auto|].
  destruct (String.eqb_spec w "sendrecv") as [->|]; [exists SendRecv; auto|]. congruence.
Qed.
Print Assumptions C33_unknown_word_inactive.

(** After an offer was accepted, each of its audio/video lines has a local media whose direction
    fits the offered one (nobody sends what the other side does not receive), and a rejected line
    is stopped and inactive.  The answer carries exactly that direction. *)
Theorem C33_answer_fits_offer : forall matched r o r' ans,
  NoDup (map m_mid (medias (ses r))) -> NoDup (map l_mid (s_lines o)) ->
  accept_offer matched r o = (r', Some ans) ->
  NoDup (map m_mid (medias (ses r'))) /\
  forall l, In l (s_lines o) -> is_media_t (l_type l) = true ->
    exists m, media_by_mid (medias (ses r')) (l_mid l) = Some m /\ agreed o m l /\
      exists l', In l' (s_lines ans) /\ l_mid l' = l_mid l /\ l_dirs l' = [m_dir m].
Proof.
  intros matched r o r' ans N NL. unfold accept_offer, next_change_id. cbn [ses counter].
  destruct (s_lines o) as [|z zs] eqn:EZ; [discriminate|]. rewrite <- EZ in *.
  destruct (negb (assert_consistency o)); [discriminate|].
  destruct (sync_medias matched (bundle_mids o) true (ses r) 0 (s_lines o)) as [s [nl|]] eqn:S1; [|discriminate].
  destruct (add_new_lines matched (bundle_mids o) true s nl) as [s' [|]] eqn:S2; [|discriminate].
  intro H. injection H as <- <-. cbn [ses].
  destruct (accepted_agreed _ _ _ _ _ _ _ N NL S1 S2) as [A B]. split; [exact A|].
  intros l Hl Tl. destruct (B l Hl Tl) as [m [M1 M2]]. exists m. split; [exact M1|]. split; [exact M2|].
  exists (line_of (EMedia m)). apply find_some in M1 as [M1 M3]. apply Z.eqb_eq in M3. split; [|split; [exact M3|reflexivity]].
  rewrite as_sdp_lines. apply in_map. eapply Permutation.Permutation_in; [apply lines_perm|].
  apply in_entries_media. exact M1.
Qed.
Print Assumptions C33_answer_fits_offer.

(** The same for an accepted answer. *)
Theorem C33_accepted_answer_fits : forall matched r p a r',
  NoDup (map m_mid (medias (ses r))) -> NoDup (map l_mid (s_lines a)) ->
  accept_answer matched r p a = (r', AnsOk) ->
  NoDup (map m_mid (medias (ses r'))) /\
  forall l, In l (s_lines a) -> is_media_t (l_type l) = true ->
    exists m, media_by_mid (medias (ses r')) (l_mid l) = Some m /\ agreed a m l.
Proof.
  intros matched r p a r' N NL. unfold accept_answer.
  destruct (negb (is_correct_change_id r (fst p))); [discriminate|].
  destruct (negb (assert_consistency a)); [discriminate|].
  destruct (sync_medias matched (bundle_mids a) false (ses r) 0 (s_lines a)) as [s [nl|]] eqn:S1; [|discriminate].
  destruct (negb (ensure_correct_answer _ nl)); [discriminate|].
  destruct (add_new_lines matched (bundle_mids a) false s nl) as [s' [|]] eqn:S2; [|discriminate].
  destruct (add_pending_ok s' _); [|discriminate].
  intro H. injection H as <-. cbn [ses]. exact (accepted_agreed _ _ _ _ _ _ _ N NL S1 S2).
Qed.
Print Assumptions C33_accepted_answer_fits.

(* RFC 8866 6.7: without a direction attribute the direction is sendrecv; the code takes inactive. *)
Theorem C33_default_direction_refuted :
  exists l, l_dirs l = [] /\ l_dir l = Inactive /\ l_dir l <> SendRecv.
Proof. exists (mkLine TAudio true 1 false [] true). repeat split. discriminate. Qed.

(** * C38 *)

(** An offer that continues the session is accepted and answered with the same m-lines in the same
    order; the session's lines stay numbered 0,1,2.. under distinct mids. *)
Theorem C38_answer_mirrors_offer : forall matched r o,
  tidy (ses r) -> continues (ses r) (s_lines o) -> s_lines o <> [] -> assert_consistency o = true ->
  exists r' ans, accept_offer matched r o = (r', Some ans) /\
    shape (s_lines ans) = shape (s_lines o) /\ tidy (ses r').
Proof. exact answer_mirrors. Qed.
Print Assumptions C38_answer_mirrors_offer.

(** No remote SDP, accepted or refused, removes or moves a media that is not disabled. *)
Theorem C38_live_media_kept : forall matched r o p a m,
  In m (medias (ses r)) ->
  (disabled m = false -> exists m', In m' (medias (ses (fst (accept_offer matched r o)))) /\ same_slot m m') /\
  (exists m', In m' (medias (ses (fst (accept_answer matched r p a)))) /\ same_slot m m').
Proof.
  intros matched r o p a m HI. split.
  - intro HD. destruct (accept_offer matched r o) as [r' x] eqn:E. eapply offer_live; eauto.
  - destruct (accept_answer matched r p a) as [r' x] eqn:E. eapply answer_live; eauto.
Qed.
Print Assumptions C38_live_media_kept.

(** ** Pending offers go stale *)
Lemma do_calls_counter cs : forall a, counter (a_rtc (fold_left do_call cs a)) = counter (a_rtc a).
Proof.
  induction cs as [|c cs IH]; intro a; [reflexivity|]. cbn [fold_left]. rewrite IH. destruct c; cbn [do_call].
  - reflexivity.
  - destruct (session_set_direction _ _ _). reflexivity.
  - destruct (session_stop_media _ _). reflexivity.
  - reflexivity.
  - reflexivity.
Qed.

Lemma apply_counter a : counter (a_rtc a) <= counter (fst (api_apply a)) /\
  (forall o, snd (api_apply a) = Some o -> counter (fst (api_apply a)) = counter (a_rtc a) + 1 /\ fst (snd o) = counter (a_rtc a)).
Proof.
  unfold api_apply. destruct (a_changes a); cbn; [split; [lia|discriminate]|].
  destruct (requires_negotiation c || existsb requires_negotiation l); cbn; (split; [lia|]); intros o E; [|discriminate].
  injection E as <-. cbn. auto.
Qed.

Lemma offer_counter matched r o : counter (fst (accept_offer matched r o)) = counter r + 1.
Proof.
  unfold accept_offer, next_change_id. cbn [ses counter].
  destruct (s_lines o); [reflexivity|]. destruct (negb (assert_consistency o)); [reflexivity|].
  destruct (sync_medias _ _ _ _ _ _) as [s [nl|]]; [|reflexivity].
  destruct (add_new_lines _ _ _ _ _) as [s' [|]]; reflexivity.
Qed.

Lemma answer_counter matched r p a : counter (fst (accept_answer matched r p a)) = counter r.
Proof.
  unfold accept_answer. destruct (negb _); [reflexivity|]. destruct (negb _); [reflexivity|].
  destruct (sync_medias _ _ _ _ _ _) as [s [nl|]]; [|reflexivity]. destruct (negb _); [reflexivity|].
  destruct (add_new_lines _ _ _ _ _) as [s' [|]]; reflexivity.
Qed.

Lemma step_counter matched r x : counter r <= counter (step matched r x) /\
  (makes_stale r x -> counter r < counter (step matched r x)).
Proof.
  destruct x as [cs [|]|o|p a]; cbn [step makes_stale].
  - pose proof (apply_counter (fold_left do_call cs (mkApi r []))) as [A B].
    rewrite do_calls_counter in A, B. cbn [a_rtc] in *. split; [exact A|]. intros [o E]. destruct (B _ E). lia.
  - rewrite do_calls_counter. cbn. split; [lia|tauto].
  - rewrite offer_counter. lia.
  - rewrite answer_counter. split; [lia|tauto].
Qed.

Lemma run_counter matched xs : forall r, counter r <= counter (run matched r xs).
Proof.
  unfold run. induction xs as [|x xs IH]; intro r; cbn [fold_left]; [lia|].
  pose proof (step_counter matched r x) as [A _]. specialize (IH (step matched r x)). lia.
Qed.

(** A pending offer is refused, with no effect, once another offer was made or accepted. *)
Theorem C38_stale_offer_refused : forall matched r cs r1 o p xs x ys a,
  api_apply (fold_left do_call cs (mkApi r [])) = (r1, Some (o, p)) ->
  makes_stale (run matched r1 xs) x ->
  let r2 := run matched r1 (xs ++ x :: ys) in
  accept_answer matched r2 p a = (r2, AnsOutOfOrder).
Proof.
  intros matched r cs r1 o p xs x ys a H S r2.
  pose proof (apply_counter (fold_left do_call cs (mkApi r []))) as [_ A]. rewrite H in A.
  specialize (A _ eq_refl). cbn [fst snd] in A. destruct A as [A1 A2].
  assert (counter r1 < counter r2) as L.
  { unfold r2, run. rewrite fold_left_app. cbn [fold_left].
    pose proof (run_counter matched xs r1) as L1. unfold run in L1, S.
    pose proof (step_counter matched (fold_left (step matched) xs r1) x) as [_ L2]. specialize (L2 S).
    pose proof (run_counter matched ys (step matched (fold_left (step matched) xs r1) x)) as L3. unfold run in L3. lia. }
  unfold accept_answer, is_correct_change_id.
  destruct (Z.eqb_spec (counter r2) (fst p + 1)) as [E|E]; [lia|]. reflexivity.
Qed.
Print Assumptions C38_stale_offer_refused.

(** ** Two peers *)
(** One complete negotiation between peers that are in agreement ends in agreement: whatever was
    added, stopped or redirected, both ends list the same m-lines, at the same places, of the same
    kinds, with inverse directions. *)
Theorem C38_exchange_keeps_agreement : forall ma mb ra rb cs,
  in_sync (ses ra) (ses rb) -> fresh_calls (ses ra) cs -> keeps_one ra cs ->
  all_live ma -> all_live mb ->
  (exists ra', exchange ma mb ra rb cs = NoOffer ra' rb /\ ses ra' = ses ra) \/
  (exists ra' rb', exchange ma mb ra rb cs = Done ra' rb' /\ in_sync (ses ra') (ses rb')).
Proof. exact exchange_ok. Qed.
Print Assumptions C38_exchange_keeps_agreement.

(** ... and so does any sequence of them, started by either side. *)
Theorem C38_agreement_over_histories : forall ma mb h ra rb,
  in_sync (ses ra) (ses rb) -> usable ma mb ra rb h -> all_live ma -> all_live mb ->
  exists ra' rb', history ma mb ra rb h = Done ra' rb' /\ in_sync (ses ra') (ses rb').
Proof.
  intros ma mb h. induction h as [|[[|] cs] h IH]; intros ra rb SY U LA LB.
  - exists ra, rb. split; [reflexivity|exact SY].
  - cbn [usable history] in *. destruct U as [U1 [U2 U3]].
    destruct (exchange_ok ma mb ra rb cs SY U1 U2 LA LB) as [[r' [E S]]|[r1 [r2 [E S]]]]; rewrite E in *.
    + apply IH; auto. rewrite S. exact SY.
    + apply IH; auto.
  - cbn [usable history] in *. destruct U as [U1 [U2 U3]].
    destruct (exchange_ok mb ma rb ra cs (in_sync_sym _ _ SY) U1 U2 LB LA) as [[r' [E S]]|[r1 [r2 [E S]]]]; rewrite E in *.
    + apply IH; auto. rewrite S. exact SY.
    + apply IH; auto. apply in_sync_sym. exact S.
Qed.
Print Assumptions C38_agreement_over_histories.

Definition fresh_rtc : rtc := mkRtc (mkSession [] None) 0.

Theorem C38_from_the_start : forall ma mb h,
  usable ma mb fresh_rtc fresh_rtc h -> all_live ma -> all_live mb ->
  exists ra rb, history ma mb fresh_rtc fresh_rtc h = Done ra rb /\ in_sync (ses ra) (ses rb).
Proof.
  intros. apply C38_agreement_over_histories; auto. split; [split; [reflexivity|constructor]|constructor].
Qed.
Print Assumptions C38_from_the_start.

(* a non-trivial history meeting the hypotheses: audio + channel, then video from the other side,
   a direction change and a stop *)
Definition every (l : line) := true.
Definition demo : list (bool * list call) :=
  [ (true, [CAddMedia 10 true SendOnly true; CAddChannel 11]);
    (false, [CAddMedia 12 false SendRecv true; CSetDirection 10 Inactive]);
    (true, [CSetDirection 12 SendOnly]);
    (false, [CStopMedia 10; CIceRestart]) ].

Ltac solve_fresh :=
  split; [cbn; repeat constructor; cbn; intuition lia|
  split; [intros m Hm Hi; vm_compute in Hm, Hi; intuition lia|
  intros m x d p Hp; cbn in Hp; intuition congruence]].
Ltac solve_keeps := intros r1 o p E; vm_compute in E; injection E as _ <- _; eexists; split; [right; left; reflexivity|reflexivity].

Example demo_usable : usable every every fresh_rtc fresh_rtc demo.
Proof.
  split; [solve_fresh|]. split; [solve_keeps|]. vm_compute exchange. cbv iota.
  split; [solve_fresh|]. split; [solve_keeps|]. vm_compute exchange. cbv iota.
  split; [solve_fresh|]. split; [solve_keeps|]. vm_compute exchange. cbv iota.
  split; [solve_fresh|]. split; [solve_keeps|]. vm_compute exchange. cbv iota. exact I.
Qed.

Example demo_result :
  match history every every fresh_rtc fresh_rtc demo with
  | Done ra rb => map (fun m => (m_mid m, m_dir m, m_stopped m)) (medias (ses ra)) =
                    [(10, Inactive, true); (12, SendOnly, false)] /\
                  map (fun m => (m_mid m, m_dir m, m_stopped m)) (medias (ses rb)) =
                    [(10, Inactive, true); (12, RecvOnly, false)]
  | _ => False
  end.
Proof. vm_compute. split; reflexivity. Qed.

(** ** Where the wider claims fail *)

(* Stopping the only m-line: the offer has an empty BUNDLE group, and a str0m peer refuses it. *)
Theorem C38_stop_last_media_refuted :
  exists ra rb, history every every fresh_rtc fresh_rtc [(true, [CAddMedia 10 true SendRecv true])] = Done ra rb /\
    in_sync (ses ra) (ses rb) /\ fresh_calls (ses ra) [CStopMedia 10] /\
    exchange every every ra rb [CStopMedia 10] = Failed.
Proof.
  destruct (C38_from_the_start every every [(true, [CAddMedia 10 true SendRecv true])]) as [ra [rb [E S]]].
  - split; [solve_fresh|]. split; [|vm_compute exchange; exact I].
    intros r1 o p E. vm_compute in E. injection E as _ <- _. eexists. split; [left; reflexivity|reflexivity].
  - intros l _. reflexivity.
  - intros l _. reflexivity.
  - exists ra, rb. split; [exact E|]. split; [exact S|]. vm_compute in E. injection E as <- <-.
    split; [solve_fresh|]. vm_compute. reflexivity.
Qed.

(* No codec in common: the answering str0m writes an m-line without payload types, which the
   offering str0m cannot parse; the answerer has changed its session. *)
Theorem C38_no_common_codec_refuted :
  exchange every (fun _ => false) fresh_rtc fresh_rtc [CAddMedia 10 true SendRecv true] = Failed.
Proof. vm_compute. reflexivity. Qed.

(* An answer that names the same new mid twice makes accept_answer panic. *)
Theorem C38_answer_panics_refuted :
  exists r1 o p a, api_apply (fold_left do_call [CAddMedia 10 true SendRecv true; CAddMedia 11 true SendRecv true]
                                (mkApi fresh_rtc [])) = (r1, Some (o, p)) /\
    length (s_lines a) = length (s_lines o) /\
    snd (accept_answer every r1 p a) = AnsPanic.
Proof.
  eexists. eexists. eexists.
  exists (mkSdp [(true, [10; 11])] [mkLine TAudio true 10 false [SendRecv] true; mkLine TAudio true 10 false [SendRecv] true]).
  split; [vm_compute; reflexivity|]. split; vm_compute; reflexivity.
Qed.

(* A stopped media is given a sending direction again if the remote's line has a nonzero port. *)
Theorem C38_stopped_stays_inactive_refuted :
  exists r o, match accept_offer every r o with
  | (r', Some _) => exists m, In m (medias (ses r')) /\ m_stopped m = true /\ sends (m_dir m)
  | _ => False
  end.
Proof.
  exists (mkRtc (mkSession [mkMedia 10 0 true Inactive true true true false false] None) 3).
  exists (mkSdp [(true, [10])] [mkLine TAudio true 10 false [SendRecv] true]).
  vm_compute. eexists. split; [left; reflexivity|]. split; [reflexivity|right; reflexivity].
Qed.

(* A refused offer is not without effect: the first line's direction is already changed. *)
Theorem C38_refused_offer_atomic_refuted :
  exists r o, tidy (ses r) /\ snd (accept_offer every r o) = None /\
    ses (fst (accept_offer every r o)) <> ses r.
Proof.
  exists (mkRtc (mkSession [mkMedia 10 0 true SendRecv false true true false false; mkMedia 11 1 true SendRecv false true true false false] None) 3).
  exists (mkSdp [(true, [10; 12])] [mkLine TAudio true 10 false [Inactive] true; mkLine TAudio true 12 false [SendRecv] true]).
  split; [split; [reflexivity|repeat constructor; cbn; intuition lia]|].
  split; [vm_compute; reflexivity|]. vm_compute. discriminate.
Qed.

(* Dropping the SdpApi (or the pending offer) does not undo a direction change. *)
Theorem C38_drop_rolls_back_refuted :
  exists r, ses (step every r (OLocal [CSetDirection 10 Inactive] false)) <> ses r.
Proof.
  exists (mkRtc (mkSession [mkMedia 10 0 true SendRecv false true true false false] None) 3). vm_compute. discriminate.
Qed.

(* A direction change can go unreported: a second update to the same value clears the flag. *)
Theorem C38_change_event_refuted :
  exists m l, m_changed m = false /\
    let m1 := update_media every None m l in let m2 := update_media every None m1 l in
    m_dir m2 <> m_dir m /\ m_changed m1 = true /\ m_changed m2 = false.
Proof.
  exists (mkMedia 10 0 true Inactive false true true false false), (mkLine TAudio true 10 false [SendRecv] true).
  vm_compute. split; [reflexivity|]. split; [discriminate|auto].
Qed.

(* The check that m-lines and BUNDLE agree never looks past the first consistent line. *)
Theorem C38_bundle_check_refuted : forall l ls g mids gs,
  line_ok l = true -> assert_consistency (mkSdp ((g, mids) :: gs) (l :: ls)) = true.
Proof. intros. unfold assert_consistency. cbn. destruct mids; [reflexivity|]. rewrite H. reflexivity. Qed.

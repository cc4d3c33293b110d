(* Vocabulary for the statements about directions and SDP offer/answer (see NegoModel.v). *)
From Coq Require Import List ZArith Bool.
From Verif Require Import Base NegoModel.
Import ListNotations.
Open Scope Z_scope.

(* What the four words mean. *)
Definition sends (d : direction) : Prop := d = SendOnly \/ d = SendRecv.
Definition receives (d : direction) : Prop := d = RecvOnly \/ d = SendRecv.

(* Local direction and the remote's own direction fit: nobody sends what the other does not take. *)
Definition compatible (loc rem : direction) : Prop :=
  (sends loc -> receives rem) /\ (receives loc -> sends rem).

(* What a session presents: its m-lines in order, by mid and type. *)
Definition shape (ls : list line) : list (Z * mtype) := map (fun l => (l_mid l, l_type l)) ls.

Definition entry_type (e : entry) : mtype := l_type (line_of e).

(* The m-lines a peer has, in order. *)
Definition session_lines (s : session) : list entry := as_media_lines s.

(* A line of an offer is rejected: port 0 and not in a BUNDLE group. *)
Definition rejected (o : sdp) (l : line) : Prop :=
  l_disabled l = true /\
  (forall mids, bundle_mids o = Some mids -> ~ In (l_mid l) mids).

(* The session's m-lines occupy the positions 0, 1, 2, ... under distinct mids. *)
Definition tidy (s : session) : Prop :=
  map e_index (session_lines s) = zseq 0 (length (session_lines s)) /\
  NoDup (map e_mid (session_lines s)).

(* An offer that continues a session as RFC 8829 section 5.2.2 asks: line i is the session's
   m-line i (same mid and type), or reuses the place of a disabled media; further lines are new;
   mids are distinct; there is at most one application line. *)
Definition line_for (s : session) (e : entry) (l : line) : Prop :=
  (l_mid l = e_mid e /\ l_type l = entry_type e) \/
  (exists m, e = EMedia m /\ disabled m = true /\ is_media_t (l_type l) = true /\
             ~ In (l_mid l) (map e_mid (session_lines s))).

Definition continues (s : session) (ls : list line) : Prop :=
  NoDup (map l_mid ls) /\
  (forall l l', In l ls -> In l' ls -> l_type l = TApp -> l_type l' = TApp -> l = l') /\
  exists old new, ls = old ++ new /\
    Forall2 (line_for s) (session_lines s) old /\
    Forall (fun l => ~ In (l_mid l) (map e_mid (session_lines s)) /\
                     (is_media_t (l_type l) = true \/ (l_type l = TApp /\ app s = None))) new.

(* Two peers describe the same m-line, each from its own side. *)
Definition mirror (a b : entry) : Prop :=
  match a, b with
  | EApp m i, EApp m' i' => m = m' /\ i = i'
  | EMedia x, EMedia y =>
      m_mid x = m_mid y /\ m_index x = m_index y /\ m_audio x = m_audio y /\
      m_dir y = invert (m_dir x) /\ m_stopped x = m_stopped y /\ m_pts x = true /\ m_pts y = true
  | _, _ => False
  end.

Definition in_sync (a b : session) : Prop :=
  tidy a /\ Forall2 mirror (session_lines a) (session_lines b).

(* One complete negotiation started by [ra] after the calls [cs], over text (wire).
   [ma], [mb]: which lines share a codec with the local configuration, at [ra] and [rb]. *)
Inductive outcome := NoOffer (ra rb : rtc) | Done (ra rb : rtc) | Failed.

Definition exchange (ma mb : line -> bool) (ra rb : rtc) (cs : list call) : outcome :=
  let a := fold_left do_call cs (mkApi ra []) in
  match api_apply a with
  | (ra1, None) => NoOffer ra1 rb
  | (ra1, Some (o, pending)) =>
      match wire o with
      | None => Failed
      | Some o' =>
          match accept_offer mb rb o' with
          | (_, None) => Failed
          | (rb1, Some ans) =>
              match wire ans with
              | None => Failed
              | Some ans' =>
                  match accept_answer ma ra1 pending ans' with
                  | (ra2, AnsOk) => Done ra2 rb1
                  | _ => Failed
                  end
              end
          end
      end
  end.

(* mids a list of calls introduces *)
Definition call_mids (cs : list call) : list Z :=
  flat_map (fun c => match c with CAddMedia m _ _ _ => [m] | CAddChannel m => [m] | _ => [] end) cs.

(* The calls use fresh mids (Mid::new is random) and kinds for which codecs are configured. *)
Definition fresh_calls (s : session) (cs : list call) : Prop :=
  NoDup (call_mids cs) /\
  (forall m, In m (call_mids cs) -> ~ In m (map e_mid (session_lines s))) /\
  (forall m a d p, In (CAddMedia m a d p) cs -> p = true).

(* The offer made after the calls keeps at least one m-line alive. *)
Definition keeps_one (r : rtc) (cs : list call) : Prop :=
  forall r1 o p, api_apply (fold_left do_call cs (mkApi r [])) = (r1, Some (o, p)) ->
  exists l, In l (s_lines o) /\ l_disabled l = false.

(* Any number of negotiations, started by either side ([true]: the first peer). *)
Fixpoint history (ma mb : line -> bool) (ra rb : rtc) (h : list (bool * list call)) : outcome :=
  match h with
  | [] => Done ra rb
  | (true, cs) :: h' =>
      match exchange ma mb ra rb cs with
      | Done ra1 rb1 | NoOffer ra1 rb1 => history ma mb ra1 rb1 h'
      | Failed => Failed
      end
  | (false, cs) :: h' =>
      match exchange mb ma rb ra cs with
      | Done rb1 ra1 | NoOffer rb1 ra1 => history ma mb ra1 rb1 h'
      | Failed => Failed
      end
  end.

(* The same, at every step: fresh mids, one m-line left alive. *)
Fixpoint usable (ma mb : line -> bool) (ra rb : rtc) (h : list (bool * list call)) : Prop :=
  match h with
  | [] => True
  | (true, cs) :: h' =>
      fresh_calls (ses ra) cs /\ keeps_one ra cs /\
      match exchange ma mb ra rb cs with
      | Done ra1 rb1 | NoOffer ra1 rb1 => usable ma mb ra1 rb1 h'
      | Failed => True
      end
  | (false, cs) :: h' =>
      fresh_calls (ses rb) cs /\ keeps_one rb cs /\
      match exchange mb ma rb ra cs with
      | Done rb1 ra1 | NoOffer rb1 ra1 => usable ma mb ra1 rb1 h'
      | Failed => True
      end
  end.

(* Both configurations have a codec for every audio or video line the other side describes. *)
Definition all_live (matched : line -> bool) : Prop := forall l, is_media_t (l_type l) = true -> matched l = true.

(* What the local side holds for a remote line: a rejected line is stopped and inactive, any other
   one has a direction that fits the remote's. *)
Definition agreed (o : sdp) (m : media) (l : line) : Prop :=
  (rejected o l -> m_dir m = Inactive /\ m_stopped m = true) /\
  (~ rejected o l -> compatible (m_dir m) (l_dir l)).

(* The same m-line: same mid, place, kind and origin. *)
Definition same_slot (m m' : media) : Prop :=
  m_mid m' = m_mid m /\ m_index m' = m_index m /\ m_audio m' = m_audio m /\ m_remote m' = m_remote m.

(* What can happen to one peer. *)
Inductive op :=
| OLocal (cs : list call) (apply : bool)      (* calls on an SdpApi object, then apply() or drop *)
| OOffer (o : sdp)                            (* accept_offer *)
| OAnswer (p : Z * list change) (a : sdp).    (* accept_answer *)

Definition step (matched : line -> bool) (r : rtc) (x : op) : rtc :=
  match x with
  | OLocal cs true => fst (api_apply (fold_left do_call cs (mkApi r [])))
  | OLocal cs false => a_rtc (fold_left do_call cs (mkApi r []))
  | OOffer o => fst (accept_offer matched r o)
  | OAnswer p a => fst (accept_answer matched r p a)
  end.

Definition run (matched : line -> bool) (r : rtc) (xs : list op) : rtc := fold_left (step matched) xs r.

(* This event makes earlier pending offers stale. *)
Definition makes_stale (r : rtc) (x : op) : Prop :=
  match x with
  | OOffer _ => True
  | OLocal cs true => exists o, snd (api_apply (fold_left do_call cs (mkApi r []))) = Some o
  | _ => False
  end.

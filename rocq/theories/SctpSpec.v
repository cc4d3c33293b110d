(** Specification for C48/C49 (data channels), in terms of what an application sees: the calls it
    makes, the events it gets, the operations on the SCTP streams, and "idle" when a poll had nothing. *)
From Verif Require Import Base DcepModel SctpModel.

Fixpoint list_sum_Z (l : list Z) : Z := match l with [] => 0 | x :: r => x + list_sum_Z r end.

Section Spec.
Context {A : Type}.
Definition history := list (@item A).

(** The channel has been announced / reported closed. *)
Definition announced (tr : history) (c : Z) : Prop := exists label, In (IEv (UOpen c label)) tr.
Definition closed (tr : history) (c : Z) : Prop := In (IEv (UClosed c)) tr.
(** The application has closed the announced channel. *)
Definition asked (tr : history) (c : Z) : Prop :=
  exists p1 p2, tr = p1 ++ ICall (OClose c) :: p2 /\ announced p1 c.

(** Which events may follow the history [tr]. *)
Definition allowed (tr : history) (u : uevent) : Prop :=
  match u with
  | UOpen c _ => ~ announced tr c /\ ~ closed tr c
  | UClosed c => ~ closed tr c
  | UData c _ _ => ~ closed tr c /\ ~ asked tr c
  | ULow c => ~ closed tr c
  | ULost => True
  end.

(** The message [buf] with PPI [p] is user data: as binary or not, with this content (RFC 8831
    section 6.6 and 8: PPIDs 51 String, 53 Binary, 56 String Empty, 57 Binary Empty, whose content is ignored). *)
Inductive user_data : ppi -> list Z -> bool -> list Z -> Prop :=
| UDString buf : user_data PString buf false buf
| UDBinary buf : user_data PBinary buf true buf
| UDStringE buf : user_data PStringEmpty buf false []
| UDBinaryE buf : user_data PBinaryEmpty buf true [].

(** Bytes waiting on all the streams of the association. *)
Definition waiting (P : proto A) (s : sctp A) : Z :=
  list_sum_Z (map (fun e => if p_stream P (s_world s) (e_id e) then p_buffered P (s_world s) (e_id e) else 0) (s_entries s)).

(** [e] happens in [tr] after [x]. *)
Definition has_act (tr : list act) (a : act) : Prop := In a tr.
End Spec.

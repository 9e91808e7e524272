(** Vocabulary for the time labels. *)
From Verif Require Import Base TimeModel.

Definition label (s : tstate) (i : Z) : option Z := t_time <$> t_objs s @ i.
Definition kids (s : tstate) (i : Z) : option (list Z) := t_kids <$> t_objs s @ i.
Definition run (s : tstate) (cs : list tcmd) : res tstate := foldM tstep cs s.
(** The call declares the object [j] modified. *)
Definition modifies (j : Z) (c : tcmd) : Prop := match c with TDeclare k | TSetKids k _ => k = j | _ => False end.
Definition forces (j : Z) (c : tcmd) : Prop := match c with TForce k _ => k = j | _ => False end.
(** The overseer [o] of the object [i] takes its reference: construction, resetState, or keepTrackOfNewTL. *)
Definition takes_reference (s : tstate) (i : Z) (s' : tstate) (o : overseer) : Prop :=
  overseerNew s (Some i) = Ok (s', o) \/ (exists r, resetState s (Some i, r) = Ok (s', o, true)) \/
  (exists o0, keepTrackOfNewTL s o0 (Some i) = Ok (s', o, true)).

(** What a part definition denotes. *)
From Verif Require Import Base DataArray SlicesSpec PartDefModel.

Definition denotes (p : part) (l : list Z) : Prop :=
  match p with
  | PSlice b e s => valid_range b e s /\ is_range_list b e s l
  | PList d => d = vec l
  end.
(** [r] is i -> m[l[i]]. *)
Definition composed (l m r : list Z) : Prop := Forall2 (fun i x => m @ i = Some x) l r.
Definition is_slice (p : part) : Prop := match p with PSlice _ _ _ => True | PList _ => False end.
(** A slice that goes down. *)
Definition goes_down (p : part) : Prop := match p with PSlice b e s => e < b | PList _ => False end.
Definition same_negative_step (p q : part) : Prop :=
  match p, q with PSlice _ _ s, PSlice _ _ s' => s = s' /\ s < 0 | _, _ => False end.
Definition step_one (p : part) : Prop := match p with PSlice _ _ s => s = 1 | PList _ => False end.

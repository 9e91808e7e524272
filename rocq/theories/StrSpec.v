(** Positions, ids and boxes in a structured grid. *)
From Verif Require Import Base SearchSpec StrModel.

(** [st]: number of cells (or nodes) along each axis.  The first axis varies fastest. *)
Fixpoint grid_nb (st : list Z) : Z := match st with [] => 1 | n :: st => n * grid_nb st end.
Fixpoint grid_id (st pos : list Z) : Z := match st, pos with n :: st, p :: pos => p + n * grid_id st pos | _, _ => 0 end.
(** The number of cells along each axis, from the number of nodes. *)
Definition cells_st (ngs : list Z) : list Z := (fun n => n - 1) <$> ngs.
Definition in_grid (st pos : list Z) : Prop := Forall2 (fun n p => 0 <= p < n) st pos.
Definition in_box (part : box) (pos : list Z) : Prop := Forall2 (fun r p => fst r <= p < snd r) part pos.
(** The box lies in the grid. *)
Definition box_in (st : list Z) (part : box) : Prop := Forall2 (fun n r => 0 <= fst r /\ fst r <= snd r /\ snd r <= n) st part.
(** The ids of the cells of the box. *)
Definition cells_of (st : list Z) (part : box) (c : Z) : Prop := exists pos, in_box part pos /\ c = grid_id st pos.
Definition dim_ok {A} (l : list A) : Prop := 1 <= zlen l <= 3.
(** Number of true values. *)
Fixpoint nb_true (l : list bool) : Z := match l with [] => 0 | b :: l => (if b then 1 else 0) + nb_true l end.
(** [pos] is the position of a cell whose value is true. *)
Definition true_at (st : list Z) (crit : list bool) (pos : list Z) : Prop := in_grid st pos /\ crit @ grid_id st pos = Some true.
(** Size along each axis. *)
Definition box_dims (part : box) : list Z := (fun r => snd r - fst r) <$> part.
Definition nonempty_box (part : box) : Prop := Forall (fun r => fst r < snd r) part.
Definition valid_box (part : box) : Prop := Forall (fun r => fst r <= snd r) part.
(** The box moved by the vector [t]. *)
Definition shift_box (part : box) (t : list Z) : box := zip_with (fun r d => (fst r + d, snd r + d)) part t.
(** The box [part] lies in [big], its first corner strictly inside. *)
Definition inside (big part : box) : Prop := Forall2 (fun B r => fst B <= fst r /\ fst r < snd B /\ fst r <= snd r /\ snd r <= snd B) big part.

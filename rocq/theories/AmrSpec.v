(** A coarse structured grid and a refined patch: [part] is the box of coarse cells covered by the patch, [facts] the refinement factors. *)
From Verif Require Import Base DataArray SearchSpec StrModel StrSpec.

(** Number of cells of the patch along each axis. *)
Definition fine_st (part : box) (facts : list Z) : list Z := zip_with Z.mul (box_dims part) facts.
(** The same grid with [g] ghost cells added at both ends of each axis; positions in the original grid move by [g]. *)
Definition ghosted (g : Z) (st : list Z) : list Z := (fun n => n + 2 * g) <$> st.
Definition moved (g : Z) (pos : list Z) : list Z := (fun x => x + g) <$> pos.
(** The tuple that holds the cell at position [pos]; the positions of ghost cells are negative or too large. *)
Definition tuple_of (g : Z) (st pos : list Z) : Z := grid_id (ghosted g st) (moved g pos).
(** The fine cell at position [x] of the patch lies in the coarse cell [cell]. *)
Fixpoint child_of (part : box) (facts cell x : list Z) : Prop :=
  match part, facts, cell, x with
  | (a, _) :: part, f :: facts, c :: cell, x :: xs => (c - a) * f <= x < (c - a + 1) * f /\ child_of part facts cell xs
  | [], [], [], [] => True
  | _, _, _, _ => False
  end.
(** [i] is the tuple of a fine cell that lies in the coarse cell [cell]. *)
Definition children (g : Z) (part : box) (facts cell : list Z) (i : Z) : Prop :=
  exists x, in_grid (fine_st part facts) x /\ child_of part facts cell x /\ i = tuple_of g (fine_st part facts) x.
(** [x] is a position in the patch or in its ghost zone, [cell] the coarse cell that gives it its value: the cell around it,
    or, beyond an end of the patch, the first coarse cell beyond this end. *)
Fixpoint source_of (part : box) (facts cell x : list Z) : Prop :=
  match part, facts, cell, x with
  | (a, b) :: part, f :: facts, c :: cell, x :: xs =>
    (x < 0 /\ c = a - 1 \/ (b - a) * f <= x /\ c = b \/ 0 <= x < (b - a) * f /\ (c - a) * f <= x < (c - a + 1) * f) /\ source_of part facts cell xs
  | [], [], [], [] => True
  | _, _, _, _ => False
  end.
Definition in_ghosted (g : Z) (st x : list Z) : Prop := in_grid (ghosted g st) (moved g x).
(** The values added one by one. *)
Definition sum_up {A} (plus : A -> A -> A) (l : list A) : option A :=
  match l with [] => None | x :: l => Some (foldl (fun acc y => plus y acc) x l) end.

(** The two arrays fit the grid and the patch, each with [g] layers of ghost cells. *)

Record fits {A} (g : Z) (st : list Z) (part : box) (facts : list Z) (fine coarse : da A) : Prop := Fits {
  fits_dim : dim_ok st;
  fits_box : box_in st part;
  fits_facts : zlen facts = zlen st /\ Forall (Z.lt 0) facts;
  fits_alloc : da_alloc fine = true /\ da_alloc coarse = true;
  fits_wf : da_wf fine /\ da_wf coarse;
  fits_nc : da_nc fine = da_nc coarse;
  fits_coarse : da_nt coarse = grid_nb (ghosted g st);
  fits_fine : da_nt fine = grid_nb (ghosted g (fine_st part facts)) }.
(** Each coarse cell of the patch receives the values of its children, added by increasing tuple; the other tuples keep their values. *)
Definition condensed {A} (plus : A -> A -> A) (g : Z) (st : list Z) (part : box) (facts : list Z) (fine coarse r : da A) : Prop :=
  da_alloc r = true /\ da_wf r /\ da_nc r = da_nc coarse /\ da_nt r = da_nt coarse /\
  (forall cell c, in_box part cell -> 0 <= c < da_nc coarse -> exists ch, enumerates (children g part facts cell) ch /\ (forall i, i ∈ ch -> is_Some (ij fine i c)) /\
     ij r (tuple_of g st cell) c = sum_up plus (omap (fun i => ij fine i c) ch)) /\
  (forall i c, (forall cell, in_box part cell -> i <> tuple_of g st cell) -> ij r i c = ij coarse i c).
(** Each fine tuple, ghost zone included, receives the value of its source. *)
Definition spread {A} (g : Z) (st : list Z) (part : box) (facts : list Z) (fine coarse r : da A) : Prop :=
  da_alloc r = true /\ da_wf r /\ da_nc r = da_nc fine /\ da_nt r = da_nt fine /\
  (forall x cell c, in_ghosted g (fine_st part facts) x -> source_of part facts cell x -> ij r (tuple_of g (fine_st part facts) x) c = ij coarse (tuple_of g st cell) c).
(** Only the ghost zone is written. *)
Definition zone_spread {A} (g : Z) (st : list Z) (part : box) (facts : list Z) (fine coarse r : da A) : Prop :=
  da_alloc r = true /\ da_wf r /\ da_nc r = da_nc fine /\ da_nt r = da_nt fine /\
  (forall x cell c, in_ghosted g (fine_st part facts) x -> ~ in_grid (fine_st part facts) x -> source_of part facts cell x -> ij r (tuple_of g (fine_st part facts) x) c = ij coarse (tuple_of g st cell) c) /\
  (forall x c, in_grid (fine_st part facts) x -> ij r (tuple_of g (fine_st part facts) x) c = ij fine (tuple_of g (fine_st part facts) x) c).
(** In dimension 3 the code of SpreadCoarseToFine takes the third factor for the second one. *)
Definition last_equal (facts : list Z) : Prop := match facts with [_; f1; f2] => f1 = f2 | _ => True end.
(** The tuples of the coarse cells covered by the patch; the tuples of the fine cells of the patch, ghost cells excluded. *)
Definition covered (g : Z) (st : list Z) (part : box) (i : Z) : Prop := exists cell, in_box part cell /\ i = tuple_of g st cell.
Definition patch (g : Z) (part : box) (facts : list Z) (i : Z) : Prop := exists x, in_grid (fine_st part facts) x /\ i = tuple_of g (fine_st part facts) x.
(** The sum of one component over given tuples. *)
Definition total (d : da Z) (c : Z) (l : list Z) : Z := foldr (fun i s => default 0 (ij d i c) + s) 0 l.

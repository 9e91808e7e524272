(** Vocabulary of meshes turned over. *)
From Verif Require Import Base CellTable CellModel CellSpec UmSpec.
Local Open Scope Z_scope.

(** The same cell with the other orientation: same type, same nodes; a segment goes from its end to its start, the borders of the other cells are run along the other way. *)
Definition turned_over (c c' : cell) : Prop :=
  c'.1 = c.1 /\ c'.2 ≡ₚ c.2 /\ exists k, GetCellModel c.1 = Ok k /\
  if cm_dim k =? 1 then exists e, c.2 = edge_nodes e /\ c'.2 = edge_nodes (opp e) else forall b b', borders k c.2 b -> borders k c'.2 b' -> opposite b b'.
(** The cells that invertOrientationOfAllCells takes, in a mesh of dimension [dim]. *)
Definition can_invert (dim : Z) (c : cell) : Prop :=
  exists k, GetCellModel c.1 = Ok k /\ cm_dim k = dim /\
  (c.1 ∈ NORM_SEG2 :: inverted /\ zlen c.2 = cm_nbpts k \/ c.1 = NORM_POLYGON /\ 1 <= zlen c.2 \/ c.1 = NORM_QPOLYG /\ shape2D true c.2).
(** The cells that changeOrientationOfCells takes: segments with their middles, and cells of dimension 2 with as many middles as corners. *)
Definition can_change (dim : Z) (c : cell) : Prop :=
  exists k, GetCellModel c.1 = Ok k /\ cm_dim k = dim /\
  if dim =? 1 then cm_dyn k = false /\ 2 <= zlen c.2 <= 4 else shape2D (cm_quad k) c.2.
(** A quadratic type. *)
Definition quadratic_cell (c : cell) : Prop :=
  c.1 ∈ [NORM_SEG3; NORM_SEG4; NORM_TRI6; NORM_TRI7; NORM_QUAD8; NORM_QUAD9; NORM_QPOLYG; NORM_TETRA10; NORM_PYRA13; NORM_PENTA15; NORM_PENTA18; NORM_HEXA20; NORM_HEXA27].

(** Cells and nodes of a structured mesh: who touches whom. *)
From Verif Require Import Base SearchSpec StrModel StrSpec.

(** Number of cells along each axis; an axis with one node is flat: the cells have no thickness along it. *)
Definition cell_axes (ngs : list Z) : list Z := (fun n => Z.max 1 (n - 1)) <$> ngs.
(** Along each axis the node is at the beginning or at the end of the cell. *)
Definition corner (cell node : list Z) : Prop := Forall2 (fun c p => p = c \/ p = c + 1) cell node.
(** [n] is the id of a corner of the cell at position [cell]. *)
Definition node_of (ngs cell : list Z) (n : Z) : Prop := exists pos, in_grid ngs pos /\ n = grid_id ngs pos /\ corner cell pos.
(** [c] is the id of a cell of which the node at position [pos] is a corner. *)
Definition cell_around (ngs pos : list Z) (c : Z) : Prop := exists cell, in_grid (cell_axes ngs) cell /\ c = grid_id (cell_axes ngs) cell /\ corner cell pos.
Definition grid_ok (ngs : list Z) : Prop := dim_ok ngs /\ Forall (fun n => 1 <= n) ngs.
Definition no_flat (ngs : list Z) : Prop := dim_ok ngs /\ Forall (fun n => 2 <= n) ngs.
(** Number of corners of a cell. *)
Fixpoint nb_corners (ngs : list Z) : Z := match ngs with [] => 1 | n :: l => (if n =? 1 then 1 else 2) * nb_corners l end.
(** The corner at the given offset from the first corner of the cell. *)
Definition corner_at (ngs cell off : list Z) : Z := grid_id ngs (zip_with Z.add cell off).
(** The order of the corners in the connectivity of SEG2, QUAD4, HEXA8 built from a structured mesh ... *)
Definition conn_order (dim : Z) : list (list Z) :=
  if dim =? 1 then [[0]; [1]]
  else if dim =? 2 then [[1; 0]; [0; 0]; [0; 1]; [1; 1]]
  else [[1; 0; 0]; [0; 0; 0]; [0; 1; 0]; [1; 1; 0]; [1; 0; 1]; [0; 0; 1]; [0; 1; 1]; [1; 1; 1]].
(** ... and in the answer of getNodeIdsOfCell. *)
Definition ids_order (dim : Z) : list (list Z) :=
  if dim =? 1 then [[0]; [1]]
  else if dim =? 2 then [[0; 0]; [1; 0]; [1; 1]; [0; 1]]
  else [[0; 0; 0]; [1; 0; 0]; [1; 1; 0]; [0; 1; 0]; [0; 0; 1]; [1; 0; 1]; [1; 1; 1]; [0; 1; 1]].

(** Vocabulary of degenerated cells. *)
From Verif Require Import Base CellTable UmSpec.
Local Open Scope Z_scope.

(** The edges of a ring of nodes, in order, from the first node back to it: those of a linear cell of dimension 2. *)
Definition ring_edges (l : list Z) : list (Z * Z) := zip l (drop 1 l ++ take 1 l).
(** The edges of a quadratic cell of dimension 2, with their middle: the middles follow the corners. *)
Definition arc_edges (l : list Z) : list (Z * Z * Z) :=
  let n := Z.to_nat (zlen l / 2) in zip (ring_edges (take n l)) (drop n l).
Definition null_edge (e : Z * Z) : Prop := e.1 = e.2.
Definition null_arc (e : Z * Z * Z) : Prop := e.1.1 = e.1.2 /\ e.1.1 = e.2.
(** The type named after the number of nodes of a cell of dimension 2. *)
Definition flat_type (quadratic : bool) (n : Z) : Z :=
  if quadratic then (if n =? 6 then NORM_TRI6 else if n =? 8 then NORM_QUAD8 else NORM_QPOLYG)
  else (if n =? 3 then NORM_TRI3 else if n =? 4 then NORM_QUAD4 else NORM_POLYGON).
(** [c'] is cell [c] of dimension 2 without its null edges; a cell whose nodes are all different stays as it is, the others get the type of their number of nodes. *)
Definition tidy (quadratic : bool) (c c' : cell) : Prop :=
  (if quadratic then arc_edges c'.2 = filter (fun e => ~ null_arc e) (arc_edges c.2)
   else ring_edges c'.2 = filter (fun e => ~ null_edge e) (ring_edges c.2)) /\
  (NoDup c.2 -> c' = c) /\ (~ NoDup c.2 -> c'.1 = flat_type quadratic (zlen c'.2) /\ (quadratic = true -> Z.Even (zlen c'.2))).
(** A cell of a mesh of dimension 2, with nodes that may repeat. *)
Definition plane_cell (quadratic : bool) (c : cell) : Prop :=
  exists k, GetCellModel c.1 = Ok k /\ cm_dim k = 2 /\ cm_quad k = quadratic /\ (forall n, n ∈ c.2 -> 0 <= n) /\ (if quadratic then 4 <= zlen c.2 else 2 <= zlen c.2).

(** * Solid cells *)
(** The places, among the nodes of a cell, of the nodes of its faces, seen from outside or inside in the same way for all the faces. *)
Definition face_places (type : Z) : list (list Z) :=
  if type =? NORM_TETRA4 then [[0; 1; 2]; [0; 3; 1]; [1; 3; 2]; [2; 3; 0]] else
  if type =? NORM_PYRA5 then [[0; 1; 2; 3]; [0; 4; 1]; [1; 4; 2]; [2; 4; 3]; [3; 4; 0]] else
  if type =? NORM_PENTA6 then [[0; 1; 2]; [3; 5; 4]; [0; 3; 4; 1]; [1; 4; 5; 2]; [2; 5; 3; 0]] else
  if type =? NORM_HEXA8 then [[0; 1; 2; 3]; [4; 7; 6; 5]; [0; 4; 5; 1]; [1; 5; 6; 2]; [2; 6; 7; 3]; [3; 7; 4; 0]] else
  if type =? NORM_HEXGP12 then [[0; 1; 2; 3; 4; 5]; [6; 11; 10; 9; 8; 7]; [0; 6; 7; 1]; [1; 7; 8; 2]; [2; 8; 9; 3]; [3; 9; 10; 4]; [4; 10; 11; 5]; [5; 11; 6; 0]] else [].
Definition size_of (type : Z) : Z :=
  if type =? NORM_TETRA4 then 4 else if type =? NORM_PYRA5 then 5 else if type =? NORM_PENTA6 then 6 else if type =? NORM_HEXA8 then 8 else 12.
(** The pieces of a list between the values -1. *)
Fixpoint pieces (l : list Z) : list (list Z) :=
  match l with
  | [] => [[]]
  | x :: r => if x =? -1 then [] :: pieces r else match pieces r with [] => [[x]] | f :: fs => (x :: f) :: fs end
  end.
(** The list with a -1 between its pieces. *)
Fixpoint joined (fs : list (list Z)) : list Z := match fs with [] => [] | [f] => f | f :: r => f ++ -1 :: joined r end.
(** The faces of a solid cell, linear or polyhedron. *)
Definition solid_faces (c : cell) : list (list Z) :=
  if c.1 =? NORM_POLYHED then pieces c.2 else (fun places : list Z => omap (fun i => c.2 @ i) places) <$> face_places c.1.
(** The first occurrences of the values of a list. *)
Fixpoint firsts (l : list Z) : list Z := match l with [] => [] | x :: r => x :: filter (fun y => y <> x) (firsts r) end.
(** The faces that keep three nodes or more once a node is not repeated. *)
Definition true_faces (c : cell) : list (list Z) := filter (fun f => 3 <= zlen f) (firsts <$> solid_faces c).
(** The same ring of nodes, in the same sense, from another node. *)
Definition turned (f g : list Z) : Prop := exists k, g = drop k f ++ take k f.
(** The same faces, in any order and each from any of its nodes. *)
Definition same_faces (F G : list (list Z)) : Prop := exists G', G' ≡ₚ G /\ Forall2 turned F G'.
(** A face of four nodes with two opposite corners at the same node and the two others elsewhere. *)
Definition pinched (f : list Z) : Prop :=
  exists a b c d, f = [a; b; c; d] /\ (a = c /\ a <> b /\ a <> d \/ b = d /\ b <> a /\ b <> c).
(** * Meshes *)
Definition quadratic_type (t : Z) : bool := match GetCellModel t with Ok k => cm_quad k | _ => false end.
(** A flat cell: two nodes at most, or two quadratic edges with the same middle. *)
Definition flat_cell (c : cell) : bool :=
  (zlen c.2 <=? 2) || (quadratic_type c.1 && match c.2 with [_; _; a; b] => a =? b | _ => false end).
(** The places of the flat cells. *)
Definition flat_ids (cells : list cell) : list Z :=
  List.filter (fun i => match cells @ i with Some c => flat_cell c | None => false end) (seqZ 0 (zlen cells)).
(** What unPolyze makes of a cell: a polygon gets the type of its number of nodes, a polyhedron that has the faces of a usual solid becomes it, a cell of a usual type stays. *)
Definition unpolyzed (c c' : cell) : Prop :=
  (c.1 = NORM_POLYGON /\ c' = (flat_type false (zlen c.2), c.2)) \/
  (c.1 = NORM_QPOLYG /\ c' = (flat_type true (zlen c.2), c.2)) \/
  (exists t l, t ∈ [NORM_TETRA4; NORM_PYRA5; NORM_PENTA6; NORM_HEXA8; NORM_HEXGP12] /\ zlen l = size_of t /\ (forall n, n ∈ l -> 0 <= n) /\ NoDup l /\
     c = (NORM_POLYHED, joined (solid_faces (t, l))) /\ c' = (t, l)) \/
  (exists k, GetCellModel c.1 = Ok k /\ cm_dyn k = false /\ c' = c).

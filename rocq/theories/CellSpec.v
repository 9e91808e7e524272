(** Specification for C62: the borders of a cell, its orientation, the faces of a polyhedron. *)
From Verif Require Import Base CellTable CellModel.
Local Open Scope Z_scope.

(** An edge goes from a node to another one; a quadratic one has a node in its middle. *)
Definition edge : Type := Z * Z * list Z.
Definition opp (e : edge) : edge := (e.1.2, e.1.1, rev e.2).
Definition edge_nodes (e : edge) : list Z := [e.1.1; e.1.2] ++ e.2.

(** The edges of a ring of nodes: from each node to the next one, the last one to the first one. *)
Definition rot (l : list Z) : list Z := drop 1 l ++ take 1 l.
Definition ring (l : list Z) : list edge := (fun p => (p.1, p.2, [])) <$> zip l (rot l).
(** The edges of a quadratic 2D cell: the first half of the nodes is a ring, the node of rank half + i is in the middle of edge i. *)
Definition ring2 (l : list Z) : list edge :=
  let h := Nat.div2 (length l) in let cs := take h l in (fun p => (p.1.1, p.1.2, [p.2])) <$> zip (zip cs (rot cs)) (drop h l).
Definition edges2D (quadratic : bool) (l : list Z) : list edge := if quadratic then ring2 l else ring l.

(** A closed surface: each edge of a face is the edge of exactly one other face, which runs along it the other way. *)
Definition closed_surface (faces : list (list edge)) : Prop := NoDup (concat faces) /\ (forall e, e ∈ concat faces -> opp e ∈ concat faces) /\ (forall e, e ∈ concat faces -> e <> opp e).

(** The same borders, run along the other way. *)
Definition opposite (b b' : list (list edge)) : Prop := length b = length b' /\ (forall f, f ∈ b -> exists f', f' ∈ b' /\ f' ≡ₚ opp <$> f) /\ (forall f', f' ∈ b' -> exists f, f ∈ b /\ f' ≡ₚ opp <$> f).

(** The connectivity of a polyhedron: its faces, with -1 between two of them. *)
Fixpoint polyhedron (faces : list (list Z)) : list Z := match faces with [] => [] | [f] => f | f :: r => f ++ -1 :: polyhedron r end.

(** [l2] is [l1] from another first node on. *)
Definition rotation (l1 l2 : list Z) : Prop := exists k, (k <= length l1)%nat /\ l2 = drop k l1 ++ take k l1.

(** The same pair of nodes, whatever the order. *)
Definition same_pair (p q : Z * Z) : Prop := p = q \/ p = (q.2, q.1).

(** The sons of a 3D cell are 2D cells with as many nodes as their type asks for, and their edges are [fs]. *)
Definition are_faces (sons : list (Z * list Z)) (fs : list (list edge)) : Prop :=
  Forall2 (fun s f => exists m, GetCellModel s.1 = Ok m /\ cm_dim m = 2 /\ (cm_dyn m = false -> zlen s.2 = cm_nbpts m) /\ f = edges2D (cm_quad m) s.2) sons fs.

(** The nodes of a 2D cell: a ring, or a ring and as many middles. *)
Definition shape2D (q : bool) (conn : list Z) : Prop := if q then 1 <= zlen conn / 2 /\ Z.Even (zlen conn) else 1 <= zlen conn.

(** The edge without its middle. *)
Definition straight (e : edge) : edge := (e.1.1, e.1.2, []).

(** No pair twice, whatever its order. *)
Definition distinct_pairs (es : list (Z * Z)) : Prop := forall i j p q, es @ i = Some p -> es @ j = Some q -> same_pair p q -> i = j.

(** The steps of an extrusion: a quadratic cell has nodes in the middle of the height. *)
Definition layers (c : cm) : Z := if cm_quad c then 2 else 1.

(** The types the inverter manages, but SEG3; their size is fixed. *)
Definition inverted : list Z := [NORM_TRI3; NORM_QUAD4; NORM_TRI6; NORM_QUAD8; NORM_TETRA4; NORM_PYRA5; NORM_PENTA6; NORM_HEXA8; NORM_TETRA10; NORM_PYRA13; NORM_PENTA15; NORM_HEXA20].

(** The faces that a 3D cell of model [c] gives, as lists of edges. *)
Definition faces_of (c : cm) (conn : list Z) (fs : list (list edge)) : Prop :=
  exists sons, zlen sons = getNumberOfSons2 c conn /\ (forall k s, sons @ k = Some s -> fillSon2 c k conn = Ok s) /\ are_faces sons fs.
(** The borders of a 2D or 3D cell. *)
Definition borders (c : cm) (conn : list Z) (b : list (list edge)) : Prop := if cm_dim c =? 2 then b = [edges2D (cm_quad c) conn] else faces_of c conn b.

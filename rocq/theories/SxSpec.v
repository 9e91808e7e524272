(** Vocabulary of cells cut, cleaned or converted. *)
From Verif Require Import Base CellTable UmSpec DgSpec.
Local Open Scope Z_scope.

(** The nodes of [l] at the given places. *)
Definition chosen (l places : list Z) : list Z := omap (fun i => l @ i) places.
(** The edges of triangles [ts] are those of the ring [l], and one more edge met once in each sense. *)
Definition fills_ring (l : list Z) (ts : list (list Z)) : Prop :=
  exists a b, concat (ring_edges <$> ts) ≡ₚ ring_edges l ++ [(a, b); (b, a)].
(** A face of four nodes cut by one of its diagonals. *)
Definition cut_face (f : list Z) (ts : list (list Z)) : Prop :=
  exists a b c d, turned f [a; b; c; d] /\ ts = [[a; b; c]; [a; c; d]].
(** The faces of the tetrahedra are those of the cell, each one cut by a diagonal, and inner faces met once in each sense. *)
Definition fills_solid (c : cell) (tetras : list cell) : Prop :=
  exists outer inner, Forall2 cut_face (solid_faces c) outer /\ same_faces (concat (solid_faces <$> tetras)) (concat outer ++ inner ++ (rev (A := Z) <$> inner)).
(** The triangles or the tetrahedra that replace a cell; a cell of another type stays. *)
Definition cut_into (policy : Z) (c : cell) (cs : list cell) : Prop :=
  if (policy =? 0) || (policy =? 1) then
    (c.1 <> NORM_QUAD4 -> cs = [c]) /\
    (c.1 = NORM_QUAD4 -> exists t1 t2, cs = [(NORM_TRI3, t1); (NORM_TRI3, t2)] /\ zlen t1 = 3 /\ zlen t2 = 3 /\ fills_ring c.2 [t1; t2] /\
       (* the diagonal: first and third nodes, or second and fourth *)
       forall n, n ∈ chosen c.2 (if policy =? 0 then [0; 2] else [1; 3]) -> n ∈ t1 /\ n ∈ t2)
  else
    (c.1 <> NORM_HEXA8 -> cs = [c]) /\
    (c.1 = NORM_HEXA8 -> zlen cs = policy /\ (forall t, t ∈ cs -> t.1 = NORM_TETRA4 /\ zlen t.2 = 4) /\ fills_solid c cs).
(** For each new cell, the rank of the cell it comes from. *)
Definition sources (css : list (list cell)) : list Z := concat (zip_with (fun i cs => (fun _ : cell => i) <$> cs) (seqZ 0 (zlen css)) css).
(** A cell of dimension 1 that is not reduced to a point. *)
Definition has_length (c : cell) : bool := match c.2 with a :: b :: _ => negb (a =? b) | _ => false end.
(** A polygon with the nodes of a cell of dimension 2, or a polyhedron with the faces of a solid; a polyhedron stays. *)
Definition as_poly (c c' : cell) : Prop :=
  (exists k, GetCellModel c.1 = Ok k /\ cm_dim k = 2 /\ c' = (if cm_quad k then NORM_QPOLYG else NORM_POLYGON, c.2)) \/
  (c.1 ∈ [NORM_TETRA4; NORM_PYRA5; NORM_PENTA6; NORM_HEXA8; NORM_HEXGP12] /\ c' = (NORM_POLYHED, joined (solid_faces c))) \/
  (c.1 = NORM_POLYHED /\ c' = c).
(** A cell of dimension 2, or a solid with all its nodes, or a polyhedron with two faces or more. *)
Definition poly_able (dim : Z) (c : cell) : Prop :=
  if dim =? 2 then exists k, GetCellModel c.1 = Ok k /\ cm_dim k = 2
  else c.1 ∈ [NORM_TETRA4; NORM_PYRA5; NORM_PENTA6; NORM_HEXA8; NORM_HEXGP12] /\ zlen c.2 = size_of c.1 \/
    exists fs, c = (NORM_POLYHED, joined fs) /\ 2 <= zlen fs /\ forall f, f ∈ fs -> -1 ∉ f.
(** The cells of the given ranks, and no other one, are made polygons or polyhedra. *)
Definition made_poly (ids : list Z) (cells cells' : list cell) : Prop :=
  zlen cells' = zlen cells /\ forall i c c', cells @ i = Some c -> cells' @ i = Some c' -> (i ∈ ids -> as_poly c c') /\ (i ∉ ids -> c' = c).
(** The linear cell with the corners of a quadratic one: its type and its number of corners. *)
Definition corners : list (Z * (Z * Z)) :=
  [(NORM_SEG3, (NORM_SEG2, 2)); (NORM_SEG4, (NORM_SEG2, 2)); (NORM_TRI6, (NORM_TRI3, 3)); (NORM_TRI7, (NORM_TRI3, 3)); (NORM_QUAD8, (NORM_QUAD4, 4)); (NORM_QUAD9, (NORM_QUAD4, 4));
   (NORM_TETRA10, (NORM_TETRA4, 4)); (NORM_PYRA13, (NORM_PYRA5, 5)); (NORM_PENTA15, (NORM_PENTA6, 6)); (NORM_PENTA18, (NORM_PENTA6, 6)); (NORM_HEXA20, (NORM_HEXA8, 8)); (NORM_HEXA27, (NORM_HEXA8, 8))].
Definition linear_cell (c : cell) : cell :=
  match List.find (fun p => p.1 =? c.1) corners with
  | Some (_, (t, n)) => (t, take (Z.to_nat n) c.2)
  | None => if c.1 =? NORM_QPOLYG then (NORM_POLYGON, take (length c.2 / 2) c.2) else c end.
(** A cell with the number of nodes of its type; a quadratic polygon has as many corners as middles. *)
Definition sized (c : cell) : Prop :=
  exists k, GetCellModel c.1 = Ok k /\ (cm_dyn k = false -> zlen c.2 = cm_nbpts k) /\ (c.1 = NORM_QPOLYG -> exists n, 0 < n /\ zlen c.2 = 2 * n).
(** A cell that unPolyze gives back: a triangle, a quadrangle, or a solid with different nodes. *)
Definition usual (dim : Z) (c : cell) : Prop :=
  if dim =? 2 then (c.1, zlen c.2) ∈ [(NORM_TRI3, 3); (NORM_QUAD4, 4); (NORM_TRI6, 6); (NORM_QUAD8, 8)]
  else c.1 ∈ [NORM_TETRA4; NORM_PYRA5; NORM_PENTA6; NORM_HEXA8; NORM_HEXGP12] /\ zlen c.2 = size_of c.1 /\ (forall n, n ∈ c.2 -> 0 <= n) /\ NoDup c.2.

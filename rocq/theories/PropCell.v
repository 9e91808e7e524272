(** C62: the models of cells. *)
From Verif Require Import Base CellTable CellModel CellSpec CellProofs CellProofs2 CellProofs3 CellProofs4 CellProofs5.
Local Open Scope Z_scope.

(** The faces of a 3D cell with a fixed number of nodes: they exist, are 2D cells on nodes of the cell, and make a closed surface. *)
Theorem C62_faces c conn : c ∈ models -> cm_dyn c = false -> cm_dim c = 3 -> zlen conn = cm_nbpts c -> NoDup conn ->
  exists sons fs, zlen sons = getNumberOfSons2 c conn /\ (forall k s, sons @ k = Some s -> fillSon2 c k conn = Ok s) /\
    are_faces sons fs /\ closed_surface fs /\ (forall s n, s ∈ sons -> n ∈ s.2 -> n ∈ conn).
Proof. exact (faces_ok c conn). Qed.
Print Assumptions C62_faces.

(** The edges of a 3D cell (HEXA27 apart): those of its faces, each once, whatever its direction. *)
Theorem C62_edges c conn sons fs : c ∈ models -> cm_dyn c = false -> cm_dim c = 3 -> cm_type c <> NORM_HEXA27 -> zlen conn = cm_nbpts c -> NoDup conn ->
  zlen sons = getNumberOfSons2 c conn -> (forall k s, sons @ k = Some s -> fillSon2 c k conn = Ok s) -> are_faces sons fs ->
  exists es, getNumberOfEdgesIn3D c conn = Ok (zlen es) /\ getNumberOfEdges c = Ok (zlen es) /\
    (forall k e, es @ k = Some e -> fillSonEdges3D c k conn = Ok (if cm_quad c then NORM_SEG3 else NORM_SEG2, edge_nodes e)) /\
    NoDup es /\ (forall e, e ∈ es -> opp e ∉ es) /\ (forall e, e ∈ concat fs <-> e ∈ es \/ opp e ∈ es).
Proof. exact (little_ok c conn sons fs). Qed.
Print Assumptions C62_edges.

(** The borders of a 2D cell, polygons included: the edges of its ring of nodes. *)
Theorem C62_border c conn : c ∈ models -> cm_dim c = 2 -> (cm_dyn c = false -> zlen conn = cm_nbpts c) ->
  getNumberOfSons2 c conn = zlen (edges2D (cm_quad c) conn) /\
  forall k e, edges2D (cm_quad c) conn @ k = Some e -> fillSon2 c k conn = Ok (if cm_quad c then NORM_SEG3 else NORM_SEG2, edge_nodes e).
Proof. exact (border_ok c conn). Qed.
Print Assumptions C62_border.

(** The micro edges: the edges of a linear cell, the halves of those of a quadratic one. *)
Theorem C62_micro c conn k t l : c ∈ models -> cm_dyn c = false -> (cm_dim c = 2 /\ fillSon2 c k conn = Ok (t, l)) \/ (cm_dim c = 3 /\ fillSonEdges3D c k conn = Ok (t, l)) ->
  if cm_quad c then exists a b m, l = [a; b; m] /\ fillMicroEdge c (2 * k) conn = Ok (NORM_SEG2, [a; m]) /\ fillMicroEdge c (2 * k + 1) conn = Ok (NORM_SEG2, [m; b])
  else fillMicroEdge c k conn = Ok (t, l).
Proof. exact (micro_ok c conn k t l). Qed.
Print Assumptions C62_micro.

(** A polyhedron gives back the faces it was made of. *)
Theorem C62_polyhedron faces : faces <> [] -> (forall f, f ∈ faces -> -1 ∉ f) -> getNumberOfSons2 cm_POLYHED (polyhedron faces) = zlen faces /\
  forall k f, faces @ k = Some f -> fillSon2 cm_POLYHED k (polyhedron faces) = Ok (NORM_POLYGON, f) /\ getNumberOfNodesConstituentTheSon2 cm_POLYHED k (polyhedron faces) = Ok (zlen f).
Proof. intros Hne Hs. exact (polyhedron_ok faces Hne Hs cm_POLYHED eq_refl). Qed.
Print Assumptions C62_polyhedron.

(** The edges of a polyhedron: those of its faces, each once whatever its direction. *)
Theorem C62_polyhedron_edges faces : faces <> [] -> (forall f, f ∈ faces -> -1 ∉ f) ->
  exists es, computeAllEdgesForPolyhedron cm_POLYHED (polyhedron faces) = Ok (concat ((fun p => [p.1; p.2]) <$> es)) /\ getNumberOfEdgesIn3D cm_POLYHED (polyhedron faces) = Ok (zlen es) /\
    distinct_pairs es /\ forall p, (exists q, q ∈ es /\ same_pair p q) <-> exists f e, f ∈ faces /\ e ∈ ring f /\ same_pair p e.1.
Proof. exact (polyhedron_edges faces). Qed.
Print Assumptions C62_polyhedron_edges.

(** A quadratic type and its linear one have the same borders but for the middles. *)
Theorem C62_linear c : c ∈ models -> cm_quad c = true -> exists m, GetCellModel (cm_lin c) = Ok m /\ cm_quad m = false /\ cm_dim m = cm_dim c /\ cm_dyn m = cm_dyn c /\
  (cm_dyn c = false -> cm_nbpts m < cm_nbpts c /\ (cm_dim c <> 1 -> forall conn b b', zlen conn = cm_nbpts c -> borders c conn b -> borders m (take (Z.to_nat (cm_nbpts m)) conn) b' -> b' = (fun l : list edge => straight <$> l) <$> b)).
Proof. exact (linear_ok c). Qed.
Print Assumptions C62_linear.
Theorem C62_quadratic c t : c ∈ models -> t = cm_quadt c \/ t = cm_quadt2 c -> t <> NORM_ERROR -> cm_quad c = false /\ exists q, GetCellModel t = Ok q /\ cm_quad q = true /\ cm_lin q = cm_type c.
Proof. exact (quad_ok c t). Qed.
Print Assumptions C62_quadratic.

(** The cell extruded from a 2D cell has it as first face and, turned over, its translated copy as second one. *)
Theorem C62_extruded c conn off : c ∈ models -> cm_dyn c = false -> cm_dim c = 2 -> zlen conn = cm_nbpts c ->
  exists e conn' s0 s1, GetCellModel (cm_ext c) = Ok e /\ cm_dim e = 3 /\ buildExtruded c conn off = Ok conn' /\ zlen conn' = cm_nbpts e /\
    fillSon2 e 0 conn' = Ok s0 /\ fillSon2 e 1 conn' = Ok s1 /\ edges2D (cm_quad c) s0.2 ≡ₚ edges2D (cm_quad c) conn /\
    edges2D (cm_quad c) s1.2 ≡ₚ opp <$> edges2D (cm_quad c) ((fun x => x + layers c * off) <$> conn) /\
    (forall x, x ∈ conn' -> exists y k, y ∈ conn /\ 0 <= k <= layers c /\ x = y + k * off).
Proof. exact (extruded_ok c conn off). Qed.
Print Assumptions C62_extruded.

(** Changing the orientation of a 2D cell: same nodes, same first one, edges the other way; twice gives the cell back. *)
Theorem C62_change2D c conn : shape2D (cm_quad c) conn -> exists conn', changeOrientationOf2D c conn = Ok conn' /\ conn' ≡ₚ conn /\ conn' @ 0 = conn @ 0 /\
  opposite [edges2D (cm_quad c) conn] [edges2D (cm_quad c) conn'] /\ changeOrientationOf2D c conn' = Ok conn.
Proof. exact (change2D_ok c conn). Qed.
Print Assumptions C62_change2D.
(** A segment of two, three or four nodes becomes the opposite one. *)
Theorem C62_change1D c a b m : cm_dyn c = false -> (length m <= 2)%nat -> changeOrientationOf1D c (edge_nodes (a, b, m)) = Ok (edge_nodes (opp (a, b, m))).
Proof. exact (change1D_ok c a b m). Qed.
Print Assumptions C62_change1D.

(** Inverting the orientation of a cell: same nodes, borders the other way; twice gives the cell back. *)
Theorem C62_invert c conn : c ∈ models -> cm_type c ∈ inverted -> zlen conn = cm_nbpts c ->
  exists conn', invertOrientation (cm_type c) conn = Ok conn' /\ conn' ≡ₚ conn /\ (forall b b', borders c conn b -> borders c conn' b' -> opposite b b') /\ invertOrientation (cm_type c) conn' = Ok conn.
Proof. exact (invert_static c conn). Qed.
Print Assumptions C62_invert.
Theorem C62_invert_polygon conn : 1 <= zlen conn -> exists conn', invertOrientation NORM_POLYGON conn = Ok conn' /\ conn' ≡ₚ conn /\ opposite [edges2D false conn] [edges2D false conn'] /\ invertOrientation NORM_POLYGON conn' = Ok conn.
Proof. exact (invert_polygon conn). Qed.
Print Assumptions C62_invert_polygon.
Theorem C62_invert_quadratic_polygon conn : shape2D true conn -> exists conn', invertOrientation NORM_QPOLYG conn = Ok conn' /\ conn' ≡ₚ conn /\ opposite [edges2D true conn] [edges2D true conn'] /\ invertOrientation NORM_QPOLYG conn' = Ok conn.
Proof. exact (invert_qpolyg conn). Qed.
Print Assumptions C62_invert_quadratic_polygon.
Theorem C62_invert_segment a b : invertOrientation NORM_SEG2 [a; b] = Ok [b; a].
Proof. exact (invert_seg2 a b). Qed.
Print Assumptions C62_invert_segment.
Theorem C62_invert_throws c conn : c ∈ models -> cm_type c ∈ NORM_SEG2 :: NORM_SEG3 :: inverted -> zlen conn <> cm_nbpts c -> invertOrientation (cm_type c) conn = Throw.
Proof. exact (invert_throws c conn). Qed.
Print Assumptions C62_invert_throws.
Theorem C62_invert_unknown gt conn : gt ∉ NORM_SEG2 :: NORM_SEG3 :: NORM_POLYGON :: NORM_QPOLYG :: inverted -> invertOrientation gt conn = Throw.
Proof. exact (invert_unknown gt conn). Qed.
Print Assumptions C62_invert_unknown.

(** Comparing the orientations of two linear cells of the same number of nodes. *)
Theorem C62_status c conn1 conn2 : cm_quad c = false -> cm_dim c = 1 \/ cm_dim c = 2 -> zlen conn1 = zlen conn2 ->
  (getOrientationStatus c conn1 conn2 = Ok true <-> if cm_dim c =? 2 then rotation conn1 conn2 else conn1 = conn2) /\
  (getOrientationStatus c conn1 conn2 = Ok false <-> (if cm_dim c =? 2 then ~ rotation conn1 conn2 /\ rotation (rev conn1) conn2 else conn1 <> conn2 /\ (rotation conn1 conn2 \/ rotation (rev conn1) conn2))) /\
  (getOrientationStatus c conn1 conn2 = Throw <-> ~ rotation conn1 conn2 /\ ~ rotation (rev conn1) conn2).
Proof. exact (status_ok c conn1 conn2). Qed.
Print Assumptions C62_status.

(** Two types are compatible when they are the same, or of the same dimension and degree and one of them has a free number of nodes. *)
Theorem C62_compatible c c' : c ∈ models -> c' ∈ models -> isCompatibleWith c (cm_type c') = Ok (bool_decide (cm_type c = cm_type c') || ((cm_dim c =? cm_dim c') && Bool.eqb (cm_quad c) (cm_quad c') && (cm_dyn c || cm_dyn c'))).
Proof. exact (compatible_ok c c'). Qed.
Print Assumptions C62_compatible.
Theorem C62_poly c : c ∈ models -> (forall t, getCorrespondingPolyType c = Ok t -> exists m, GetCellModel t = Ok m /\ cm_dim m = cm_dim c /\ cm_quad m = cm_quad c /\ (cm_dim c = 0 \/ cm_dyn m = true)) /\
  (getCorrespondingPolyType c = Throw -> (cm_quad c = true /\ cm_dim c <> 2) \/ 3 < cm_dim c).
Proof. exact (poly_ok c). Qed.
Print Assumptions C62_poly.
(** Twice as many micro edges as edges for a quadratic type, as many for a linear one. *)
Theorem C62_micro_number c : c ∈ models -> cm_dyn c = false -> cm_type c <> NORM_HEXA27 -> cm_dim c = 2 \/ cm_dim c = 3 -> exists n, getNumberOfEdges c = Ok n /\ getNumberOfMicroEdges c = Ok (layers c * n).
Proof. exact (microcount_ok c). Qed.
Print Assumptions C62_micro_number.
(** The other numbering of the faces of a hexahedron is a renumbering: different ranks, different faces of the first numbering. *)
Theorem C62_other_numbering c conn k : 0 <= k < 6 -> cm_type c = NORM_HEXA8 -> exists k', 0 <= k' < 6 /\ fillSon4 c k conn = fillSon2 c k' conn /\ (forall j, 0 <= j < 6 -> j <> k -> exists j', 0 <= j' < 6 /\ j' <> k' /\ fillSon4 c j conn = fillSon2 c j' conn).
Proof. exact (fillSon4_ok c conn k). Qed.
Print Assumptions C62_other_numbering.

(** *** What does not hold *)
(** A quadratic triangle is not found oriented as itself. *)
Theorem C62_status_quadratic_refuted : exists c conn, c ∈ models /\ cm_quad c = true /\ cm_dim c = 2 /\ zlen conn = cm_nbpts c /\ NoDup conn /\ getOrientationStatus c conn conn = Ok false.
Proof. exact status_quadratic_refuted. Qed.
Print Assumptions C62_status_quadratic_refuted.
(** The inverter of SEG3 exchanges an end and the middle. *)
Theorem C62_invert_seg3_refuted : ~ forall a b m, invertOrientation NORM_SEG3 (edge_nodes (a, b, [m])) = Ok (edge_nodes (opp (a, b, [m]))).
Proof. exact invert_seg3_refuted. Qed.
Print Assumptions C62_invert_seg3_refuted.
(** Changing the orientation of a quadratic cell with a node at its centre writes out of the array. *)
Theorem C62_change2D_centre_refuted : exists c conn, c ∈ models /\ cm_dim c = 2 /\ cm_dyn c = false /\ zlen conn = cm_nbpts c /\ changeOrientationOf2D c conn = UB.
Proof. exact change2D_centre_refuted. Qed.
Print Assumptions C62_change2D_centre_refuted.
(** Changing the orientation of a polyline moves its pieces: it keeps the first node. *)
Theorem C62_polyline_refuted : exists conn conn', changeOrientationOf1D cm_POLYL conn = Ok conn' /\ conn' <> rev conn /\ conn' <> conn.
Proof. exact polyline_refuted. Qed.
Print Assumptions C62_polyline_refuted.
(** HEXA27 has no edge: their number is the greatest unsigned one. *)
Theorem C62_hexa27_refuted : getNumberOfEdges cm_HEXA27 = Ok 4294967295 /\ forall k conn, fillSonEdges3D cm_HEXA27 k conn = UB.
Proof. exact hexa27_refuted. Qed.
Print Assumptions C62_hexa27_refuted.
(** A polyline is said to have as many sons as nodes, none of which can be asked for. *)
Theorem C62_polyline_sons_refuted conn k : getNumberOfSons2 cm_POLYL conn = zlen conn /\ fillSon2 cm_POLYL k conn = Throw.
Proof. exact (polyline_sons conn k). Qed.
Print Assumptions C62_polyline_sons_refuted.

(** *** The hypotheses are met *)
Example C62_ex : cm_HEXA8 ∈ models /\ zlen [10; 11; 12; 13; 20; 21; 22; 23] = cm_nbpts cm_HEXA8 /\ fillSon2 cm_HEXA8 1 [10; 11; 12; 13; 20; 21; 22; 23] = Ok (NORM_QUAD4, [20; 23; 22; 21]) /\
  fillSonEdges3D cm_HEXA8 11 [10; 11; 12; 13; 20; 21; 22; 23] = Ok (NORM_SEG2, [13; 23]) /\ invertOrientation NORM_HEXA8 [10; 11; 12; 13; 20; 21; 22; 23] = Ok [10; 13; 12; 11; 20; 23; 22; 21] /\
  polyhedron [[0; 1; 2]; [0; 3; 1]; [1; 3; 2]; [2; 3; 0]] = [0; 1; 2; -1; 0; 3; 1; -1; 1; 3; 2; -1; 2; 3; 0] /\ getNumberOfEdgesIn3D cm_POLYHED (polyhedron [[0; 1; 2]; [0; 3; 1]; [1; 3; 2]; [2; 3; 0]]) = Ok 6 /\
  changeOrientationOf2D cm_TRI6 [0; 1; 2; 3; 4; 5] = Ok [0; 2; 1; 5; 4; 3] /\ buildExtruded cm_TRI3 [0; 1; 2] 100 = Ok [0; 1; 2; 100; 101; 102] /\
  getOrientationStatus cm_QUAD4 [5; 6; 7; 8] [7; 8; 5; 6] = Ok true /\ getOrientationStatus cm_QUAD4 [5; 6; 7; 8] [6; 5; 8; 7] = Ok false.
Proof. exact cell_ex. Qed.

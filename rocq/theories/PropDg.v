(** C104: degenerated cells. *)
From Coq Require Import QArith.
From Verif Require Import Base DataArray CellTable CellModel UmModel UmSpec UcProofs6 DgModel DgSpec DgProofs DgProofs4 DgProofs5 DgProofs6 DgProofs7 DgExamples.
Local Open Scope Z_scope.

(** A cell of dimension 2 loses its null edges and no other one; a cell whose nodes are all different is not changed. *)
Theorem C104_plane q c : plane_cell q c -> exists c', simplifyDegeneratedCell c.1 c.2 = Ok c' /\ tidy q c c' /\ zlen c'.2 <= zlen c.2.
Proof. intros H. destruct (simplify_plane q c H) as (c' & H1 & H2 & H3 & _). exists c'. exact (conj H1 (conj H2 H3)). Qed.
Print Assumptions C104_plane.
Example C104_plane_quad : plane_cell false (NORM_QUAD4, [0; 1; 1; 2]) /\ simplifyDegeneratedCell NORM_QUAD4 [0; 1; 1; 2] = Ok (NORM_TRI3, [0; 1; 2]) /\
  plane_cell true (NORM_QUAD8, [0; 1; 2; 2; 5; 6; 2; 7]) /\ simplifyDegeneratedCell NORM_QUAD8 [0; 1; 2; 2; 5; 6; 2; 7] = Ok (NORM_TRI6, [0; 1; 2; 5; 6; 7]).
Proof. split; [apply planeb_ok; reflexivity|]. split; [vm_compute; reflexivity|]. split; [apply planeb_ok; reflexivity|]. vm_compute. reflexivity. Qed.

(** A mesh of dimension 2: every cell is made tidy; the flat ones leave the mesh when asked, and their places are given. *)
Theorem C104_mesh_plane m cells : 2 <= um_dim m -> um_coords m <> None -> stores m cells -> typed m cells -> Forall (fun c => exists q, plane_cell q c) cells ->
  exists cells', Forall2 (fun c c' => exists q, plane_cell q c /\ tidy q c c') cells cells' /\
    (exists m', convertDegeneratedCells m = Ok m' /\ stores m' cells' /\ typed m' cells' /\ um_dim m' = um_dim m /\ um_coords m' = um_coords m) /\
    (exists m', convertDegeneratedCellsAndRemoveFlatOnes m = Ok (m', flat_ids cells') /\ stores m' (List.filter (fun c => negb (flat_cell c)) cells') /\
      typed m' (List.filter (fun c => negb (flat_cell c)) cells') /\ um_dim m' = um_dim m /\ um_coords m' = um_coords m).
Proof. exact (convert_plane m cells). Qed.
Print Assumptions C104_mesh_plane.
Example C104_mesh_folded : Forall (fun c => exists q, plane_cell q c) folded /\ (2 <= um_dim (mk 2 8 folded) /\ um_coords (mk 2 8 folded) <> None /\ stores (mk 2 8 folded) folded /\ typed (mk 2 8 folded) folded) /\
  convertDegeneratedCells (mk 2 8 folded) = Ok (mk 2 8 unfolded) /\ convertDegeneratedCellsAndRemoveFlatOnes (mk 2 8 folded) = Ok (mk 2 8 [(NORM_TRI3, [0; 1; 2]); (NORM_TRI3, [0; 1; 2]); (NORM_TRI6, [0; 1; 2; 5; 6; 7])], [2; 4]).
Proof. split; [exact folded_plane|]. split; [exact folded_mesh|]. split; vm_compute; reflexivity. Qed.
(** The documentation takes a linear cell for flat when all its nodes are equal.  A triangle with two nodes is removed too. *)
Theorem C104_flat_refuted m a b : 2 <= um_dim m -> um_coords m <> None -> stores m [(NORM_TRI3, [a; a; b])] -> typed m [(NORM_TRI3, [a; a; b])] -> 0 <= a -> 0 <= b -> a <> b ->
  exists m', convertDegeneratedCellsAndRemoveFlatOnes m = Ok (m', [0]) /\ stores m' [].
Proof. exact (flat_triangle m a b). Qed.
Print Assumptions C104_flat_refuted.
Example C104_flat_334 : stores (mk 2 5 [(NORM_TRI3, [3; 3; 4])]) [(NORM_TRI3, [3; 3; 4])] /\ typed (mk 2 5 [(NORM_TRI3, [3; 3; 4])]) [(NORM_TRI3, [3; 3; 4])].
Proof. destruct (mk_ok 2 5 [(NORM_TRI3, [3; 3; 4])] ltac:(lia)) as (H1 & H2 & _). exact (conj H1 H2). Qed.

(** A solid keeps the faces that still have three nodes, without repeated nodes, with their sense, and no other one.  A hexahedron must have no face folded on a diagonal. *)
Theorem C104_solid_partial t l : t ∈ [NORM_TETRA4; NORM_PYRA5; NORM_PENTA6; NORM_HEXA8] -> zlen l = size_of t -> (forall n, n ∈ l -> 0 <= n) ->
  (t = NORM_HEXA8 -> forall f, f ∈ solid_faces (t, l) -> ~ pinched f) -> true_faces (t, l) <> [] ->
  exists c', simplifyDegeneratedCell t l = Ok c' /\ same_faces (solid_faces c') (true_faces (t, l)) /\ (NoDup l -> c' = (t, l)) /\ (c'.1 <> NORM_POLYHED -> NoDup c'.2 /\ zlen c'.2 = size_of c'.1).
Proof. intros H1 H2 H3 H4. exact (proj2 (solid_ok t l H1 H2 H3 H4)). Qed.
Print Assumptions C104_solid_partial.
Example C104_solid_hexa : (forall f, f ∈ solid_faces (NORM_HEXA8, closed_hexa) -> ~ pinched f) /\ true_faces (NORM_HEXA8, closed_hexa) = [[0; 1; 2; 3]; [0; 4; 1]; [1; 4; 2]; [2; 4; 3]; [3; 4; 0]] /\ simplifyDegeneratedCell NORM_HEXA8 closed_hexa = Ok (NORM_PYRA5, [0; 1; 2; 3; 4]).
Proof. split; [exact closed_ok|]. split; vm_compute; reflexivity. Qed.
(** The same claim is false of a hexahedron with such a face. *)
Theorem C104_hexa_refuted : exists l c', zlen l = 8 /\ (forall n, n ∈ l -> 0 <= n) /\ simplifyDegeneratedCell NORM_HEXA8 l = Ok c' /\ ~ same_faces (solid_faces c') (true_faces (NORM_HEXA8, l)).
Proof. exact hexa_wrong. Qed.
Print Assumptions C104_hexa_refuted.
(** A solid that keeps no face steps out of its buffer. *)
Theorem C104_no_face_refuted t l : t ∈ [NORM_TETRA4; NORM_PYRA5; NORM_PENTA6; NORM_HEXA8] -> zlen l = size_of t -> (forall n, n ∈ l -> 0 <= n) ->
  (t = NORM_HEXA8 -> forall f, f ∈ solid_faces (t, l) -> ~ pinched f) -> true_faces (t, l) = [] -> simplifyDegeneratedCell t l = UB.
Proof. intros H1 H2 H3 H4. exact (proj1 (solid_ok t l H1 H2 H3 H4)). Qed.
Print Assumptions C104_no_face_refuted.
Example C104_no_face_tetra : true_faces (NORM_TETRA4, [0; 0; 1; 1]) = [] /\ true_faces (NORM_TETRA4, [0; 1; 2; 2]) <> [].
Proof. split; [reflexivity|]. discriminate. Qed.
(** The usual ways to close a cell. *)
Theorem C104_collapse a b c d e f : NoDup [a; b; c; d; e; f] -> (forall x, x ∈ [a; b; c; d; e; f] -> 0 <= x) -> NoDup [a; b; c; d; e] -> NoDup [a; b; c; d] ->
  (forall x, x ∈ [a; b; c; d; e] -> 0 <= x) -> (forall x, x ∈ [a; b; c; d] -> 0 <= x) ->
  simplifyDegeneratedCell NORM_HEXA8 [a; b; c; d; e; e; e; e] = Ok (NORM_PYRA5, [a; b; c; d; e]) /\ simplifyDegeneratedCell NORM_HEXA8 [a; b; c; d; e; f; f; e] = Ok (NORM_PENTA6, [b; f; c; a; e; d]) /\
  simplifyDegeneratedCell NORM_PENTA6 [a; b; c; d; d; d] = Ok (NORM_TETRA4, [a; b; c; d]) /\ simplifyDegeneratedCell NORM_PENTA6 [a; b; c; a; d; e] = Ok (NORM_PYRA5, [b; d; e; c; a]) /\
  simplifyDegeneratedCell NORM_PYRA5 [a; b; c; c; d] = Ok (NORM_TETRA4, [a; b; c; d]).
Proof. intros N6 P6 N5 N4 P5 P4. exact (conj (hexa_pyra a b c d e N5 P5) (conj (hexa_penta a b c d e f N6 P6) (conj (penta_tetra a b c d N4 P4) (conj (penta_pyra a b c d e N5 P5) (pyra_tetra a b c d N4 P4))))). Qed.
Print Assumptions C104_collapse.
Example C104_collapse_ex : NoDup [4; 1; 0; 3; 9; 7] /\ NoDup [4; 1; 0; 3; 9] /\ NoDup [4; 1; 0; 3].
Proof. split; [|split]; apply nodup_b; reflexivity. Qed.
(** A polyhedron with the faces of a usual solid becomes this solid, with its nodes in the same order. *)
Theorem C104_polyhedron_back t l : t ∈ [NORM_TETRA4; NORM_PYRA5; NORM_PENTA6; NORM_HEXA8; NORM_HEXGP12] -> zlen l = size_of t -> (forall n, n ∈ l -> 0 <= n) -> NoDup l ->
  simplifyDegeneratedCell NORM_POLYHED (joined (solid_faces (t, l))) = Ok (t, l).
Proof. exact (polyhedron_back t l). Qed.
Print Assumptions C104_polyhedron_back.
Example C104_polyhedron_tetra : joined (solid_faces (NORM_TETRA4, [5; 3; 8; 0])) = [5; 3; 8; -1; 5; 0; 3; -1; 3; 0; 8; -1; 8; 0; 5] /\ NoDup [5; 3; 8; 0].
Proof. split; [reflexivity|]. apply nodup_b. reflexivity. Qed.

(** A mesh of any dimension whose cells do not become longer: every cell is replaced, in place. *)
Theorem C104_mesh_partial m cells cells' : 2 <= um_dim m -> um_coords m <> None -> stores m cells -> typed m cells -> Forall2 (fun c c' => simplifyDegeneratedCell c.1 c.2 = Ok c' /\ zlen c'.2 <= zlen c.2) cells cells' ->
  exists m', convertDegeneratedCells m = Ok m' /\ stores m' cells' /\ typed m' cells' /\ um_dim m' = um_dim m /\ um_coords m' = um_coords m.
Proof. exact (convert_any m cells cells'). Qed.
Print Assumptions C104_mesh_partial.
Example C104_mesh_solids : Forall2 (fun c c' : cell => simplifyDegeneratedCell c.1 c.2 = Ok c' /\ zlen c'.2 <= zlen c.2) solids solids' /\ convertDegeneratedCells (mk 3 9 solids) = Ok (mk 3 9 solids').
Proof. split; [|vm_compute; reflexivity]. constructor; [split; [vm_compute; reflexivity|discriminate]|]. constructor; [split; [vm_compute; reflexivity|discriminate]|]. constructor; [split; [vm_compute; reflexivity|discriminate]|]. constructor. Qed.
(** A cell that becomes longer is written past the end of the connectivity. *)
Theorem C104_hexa_overflow_refuted m a b c d e f g : um_dim m = 3 -> um_coords m <> None -> stores m [(NORM_HEXA8, [a; b; c; d; e; f; g; g])] ->
  NoDup [a; b; c; d; e; f; g] -> (forall x, x ∈ [a; b; c; d; e; f; g] -> 0 <= x) -> convertDegeneratedCells m = UB.
Proof. exact (hexa_overflow m a b c d e f g). Qed.
Print Assumptions C104_hexa_overflow_refuted.
Theorem C104_tetra_overflow_refuted m a b c : um_dim m = 3 -> um_coords m <> None -> stores m [(NORM_TETRA4, [a; b; c; c])] ->
  NoDup [a; b; c] -> (forall x, x ∈ [a; b; c] -> 0 <= x) -> convertDegeneratedCells m = UB.
Proof. exact (tetra_overflow m a b c). Qed.
Print Assumptions C104_tetra_overflow_refuted.
Example C104_overflow_ex : stores (mk 3 7 [(NORM_HEXA8, [0; 1; 2; 3; 4; 5; 6; 6])]) [(NORM_HEXA8, [0; 1; 2; 3; 4; 5; 6; 6])] /\ NoDup [0; 1; 2; 3; 4; 5; 6].
Proof. destruct (mk_ok 3 7 [(NORM_HEXA8, [0; 1; 2; 3; 4; 5; 6; 6])] ltac:(lia)) as (H1 & _). split; [exact H1|]. apply nodup_b. reflexivity. Qed.

(** unPolyze gives polygons and polyhedra their usual type, keeps the other cells, and tells whether a type has changed. *)
Theorem C104_unpolyze m cells cells' : 2 <= um_dim m -> um_coords m <> None -> stores m cells -> typed m cells -> Forall2 unpolyzed cells cells' ->
  exists m' b, unPolyze m = Ok (m', b) /\ (b = true <-> fst <$> cells' <> fst <$> cells) /\ stores m' cells' /\ typed m' cells' /\ um_dim m' = um_dim m /\ um_coords m' = um_coords m.
Proof. exact (unpolyze_mesh m cells cells'). Qed.
Print Assumptions C104_unpolyze.
Example C104_unpolyze_polys : Forall2 unpolyzed polys polys' /\ (stores (mk 3 12 polys) polys /\ typed (mk 3 12 polys) polys) /\ unPolyze (mk 3 12 polys) = Ok (mk 3 12 polys', true) /\ unPolyze (mk 3 12 polys') = Ok (mk 3 12 polys', false).
Proof. split; [exact polys_ok|]. split; [destruct (mk_ok 3 12 polys ltac:(lia)) as (H1 & H2 & _); exact (conj H1 H2)|]. split; vm_compute; reflexivity. Qed.

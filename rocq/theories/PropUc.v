(** C67: cells equal for a policy of comparison: search, removal, meshes on the same coordinates. *)
From Verif Require Import Base DataArray StdModel IndexSpec RenumSpec PartSpec CellTable UmModel UmSpec UcModel UcSpec UcProofs UcProofs3 UcProofs4 UcProofs6.
Local Open Scope Z_scope.

(** Policies 0 to 3 are equivalences, so the groups are well defined. *)
Theorem C67_alike_equivalence : forall p c d e, alike p c c /\ (alike p c d -> alike p d c) /\ (alike p c d -> alike p d e -> alike p c e).
Proof. exact (fun p c d e => conj (alike_refl p c) (conj (alike_sym p c d) (alike_trans p c d e))). Qed.
Print Assumptions C67_alike_equivalence.
(** Two cells are in one group exactly when they are alike (and alike to a cell from the one where the search begins). *)
Theorem C67_findCommonCells_partial : forall m cells nb p k, stores m cells -> has_nodes m nb -> (forall v, used cells v -> v < nb) -> -1 <= um_dim m -> policy_for p cells -> with_nodes cells -> 0 <= k ->
  exists gs c cI, findCommonCells m p k = Ok (c, cI) /\ skyline gs c cI /\ groups_of p k cells gs.
Proof. exact common_cells_ok. Qed.
Print Assumptions C67_findCommonCells_partial.
Example C67_findCommonCells_partial_ex : exists m, stores m tris /\ has_nodes m 4 /\ (forall v, used tris v -> v < 4) /\ um_dim m = 2 /\ policy_for 1 tris /\ with_nodes tris /\
  findCommonCells m 1 0 = Ok ([0; 2], [0; 2]) /\ findCommonCells m 2 0 = Ok ([0; 2; 4], [0; 3]) /\ findCommonCells m 2 1 = Ok ([0; 2; 4], [0; 3]) /\ findCommonCells m 0 0 = Ok ([], [0]).
Proof.
  exists (mk 2 4 tris). destruct (mk_ok 2 4 tris) as (H1 & _ & H2); [lia|]. split; [done|]. split; [done|]. split; [exact tris_used|]. split; [done|]. split; [apply tris_policy; lia|]. split; [exact tris_nodes|].
  split; [vm_compute; reflexivity|]. split; [vm_compute; reflexivity|]. split; vm_compute; reflexivity.
Qed.
(** Removal of the duplicates: the array old to new and the cells left. *)
Theorem C67_zipConnectivityTraducer_partial : forall m cells nb p k, stores m cells -> has_nodes m nb -> (forall v, used cells v -> v < nb) -> 0 <= um_dim m -> policy_for p cells -> with_nodes cells -> 0 <= k ->
  exists m' r K new, zipConnectivityTraducer m p k = Ok (m', r) /\ quotient p k cells r K /\ stores m' new /\ typed m' new /\ um_dim m' = um_dim m /\ um_coords m' = um_coords m /\
    zlen new = K /\ kept_last cells new r.
Proof. exact zip_ok. Qed.
Print Assumptions C67_zipConnectivityTraducer_partial.
Example C67_zipConnectivityTraducer_partial_ex : exists m m', stores m tris /\ has_nodes m 4 /\ (forall v, used tris v -> v < 4) /\ um_dim m = 2 /\ policy_for 2 tris /\ with_nodes tris /\
  zipConnectivityTraducer m 2 0 = Ok (m', [0; 1; 0; 2; 0]) /\ stores m' [(NORM_TRI3, [2; 1; 0]); (NORM_TRI3, [1; 2; 3]); (NORM_QUAD4, [0; 1; 3; 2])].
Proof.
  exists (mk 2 4 tris), (mk 2 4 [(NORM_TRI3, [2; 1; 0]); (NORM_TRI3, [1; 2; 3]); (NORM_QUAD4, [0; 1; 3; 2])]). destruct (mk_ok 2 4 tris) as (H1 & _ & H2); [lia|]. split; [done|]. split; [done|]. split; [exact tris_used|]. split; [done|]. split; [apply tris_policy; lia|]. split; [exact tris_nodes|].
  split; [vm_compute; reflexivity|]. apply mk_ok. lia.
Qed.
(** Meshes on the same coordinates: the cells of all of them, in order. *)
Theorem C67_MergeUMeshesOnSameCoords : forall d m0 ms css, -1 <= d -> Forall2 (fun m cs => stores m cs /\ um_dim m = d) (m0 :: ms) css ->
  exists m', MergeUMeshesOnSameCoords (m0 :: ms) true = Ok m' /\ stores m' (concat css) /\ typed m' (concat css) /\ um_dim m' = d /\ um_coords m' = um_coords m0.
Proof. exact on_same_ok. Qed.
Print Assumptions C67_MergeUMeshesOnSameCoords.
Example C67_MergeUMeshesOnSameCoords_ex : Forall2 (fun m cs => stores m cs /\ um_dim m = 2) [mk 2 4 tris; mk 2 4 []; mk 2 4 [(NORM_TRI3, [1; 2; 3])]] [tris; []; [(NORM_TRI3, [1; 2; 3])]].
Proof. constructor; [split; [apply mk_ok; lia|done]|]. constructor; [split; [apply mk_ok; lia|done]|]. constructor; [split; [apply mk_ok; lia|done]|]. constructor. Qed.
(** Fusion: one array old to new for each mesh. *)
Theorem C67_FuseUMeshesOnSameCoords_partial : forall m0 ms css nb p, 0 <= um_dim m0 -> Forall2 (fun m cs => stores m cs /\ um_dim m = um_dim m0) (m0 :: ms) css -> has_nodes m0 nb ->
  (forall cs v, cs ∈ css -> used cs v -> v < nb) -> (forall cs, cs ∈ css -> with_nodes cs) -> (forall cs, cs ∈ css -> policy_for p cs) ->
  exists m' corr K new, FuseUMeshesOnSameCoords (m0 :: ms) true p = Ok (m', corr) /\ quotient p 0 (concat css) (concat corr) K /\ zlen <$> corr = zlen <$> css /\
    stores m' new /\ typed m' new /\ um_dim m' = um_dim m0 /\ um_coords m' = um_coords m0 /\ zlen new = K /\ kept_last (concat css) new (concat corr).
Proof. exact fuse_ok. Qed.
Print Assumptions C67_FuseUMeshesOnSameCoords_partial.
Example C67_FuseUMeshesOnSameCoords_partial_ex : exists m0 m1 m', stores m0 tris /\ stores m1 tris /\ um_dim m0 = 2 /\ um_dim m1 = 2 /\ has_nodes m0 4 /\ (forall v, used tris v -> v < 4) /\ with_nodes tris /\ policy_for 1 tris /\
  FuseUMeshesOnSameCoords [m0; m1] true 1 = Ok (m', [[0; 1; 0; 2; 3]; [0; 1; 0; 2; 3]]).
Proof.
  exists (mk 2 4 tris), (mk 2 4 tris), (mk 2 4 [(NORM_TRI3, [2; 0; 1]); (NORM_TRI3, [1; 2; 3]); (NORM_QUAD4, [0; 1; 3; 2]); (NORM_TRI3, [2; 1; 0])]). destruct (mk_ok 2 4 tris) as (H1 & _ & H2); [lia|]. split; [done|]. split; [done|]. split; [done|]. split; [done|]. split; [done|].
  split; [exact tris_used|]. split; [exact tris_nodes|]. split; [apply tris_policy; lia|]. vm_compute. reflexivity.
Qed.
(** The cells of a mesh looked for in another one. *)
Theorem C67_areCellsIncludedIn_partial : forall m other A B nb p, stores m A -> stores other B -> um_dim other = um_dim m -> -1 <= um_dim m -> has_nodes m nb -> (forall v, used A v -> v < nb) -> (forall v, used B v -> v < nb) ->
  with_nodes A -> with_nodes B -> policy_for p A -> policy_for p B -> p <> 3 -> A <> [] -> B <> [] ->
  exists b a, areCellsIncludedIn m other true p = Ok (b, a) /\ found_in p A B b a.
Proof. exact included_ok. Qed.
Print Assumptions C67_areCellsIncludedIn_partial.
Example C67_areCellsIncludedIn_partial_ex : exists m other, stores m tris /\ stores other tris /\ um_dim m = 2 /\ um_dim other = 2 /\ has_nodes m 4 /\ (forall v, used tris v -> v < 4) /\ with_nodes tris /\ policy_for 2 tris /\
  areCellsIncludedIn m other true 2 = Ok (true, [4; 1; 4; 3; 4]).
Proof.
  exists (mk 2 4 tris), (mk 2 4 tris). destruct (mk_ok 2 4 tris) as (H1 & _ & H2); [lia|]. split; [done|]. split; [done|]. split; [done|]. split; [done|]. split; [done|].
  split; [exact tris_used|]. split; [exact tris_nodes|]. split; [apply tris_policy; lia|]. vm_compute. reflexivity.
Qed.
Theorem C67_areCellsIncludedIn_nothing : forall m other A p, stores m A -> stores other [] -> um_dim other = um_dim m -> -1 <= um_dim m -> 0 <= p <= 2 -> areCellsIncludedIn m other true p = Ok (true, []).
Proof. exact included_empty. Qed.
Print Assumptions C67_areCellsIncludedIn_nothing.
Example C67_areCellsIncludedIn_nothing_ex : stores (mk 2 4 tris) tris /\ stores (mk 2 4 []) [].
Proof. split; apply mk_ok; lia. Qed.

(** Policy 0 is documented to compare the types as well. *)
Theorem C67_policy0_types_refuted : exists m, stores m [(NORM_QUAD4, [0; 1; 2; 3]); (NORM_POLYGON, [0; 1; 2; 3])] /\ has_nodes m 4 /\ findCommonCells m 0 0 = Ok ([0; 1], [0; 2]) /\ findCommonCells m 2 0 = Ok ([], [0]).
Proof. exact policy0_types. Qed.
Print Assumptions C67_policy0_types_refuted.
(** Policy 1 turns the list of nodes of a quadratic cell as if it were flat. *)
Theorem C67_policy1_quadratic_refuted : exists m m', stores m [(NORM_TRI6, [0; 1; 2; 3; 4; 5]); (NORM_TRI6, [1; 2; 0; 4; 5; 3])] /\ has_nodes m 6 /\ findCommonCells m 1 0 = Ok ([], [0]) /\
  stores m' [(NORM_TRI6, [0; 1; 2; 3; 4; 5]); (NORM_TRI6, [1; 2; 3; 4; 5; 0])] /\ has_nodes m' 6 /\ findCommonCells m' 1 0 = Ok ([0; 1], [0; 2]).
Proof. exact policy1_quadratic. Qed.
Print Assumptions C67_policy1_quadratic_refuted.
(** A mesh of one polyhedron has a group of equal cells; policy 1 fails on it. *)
Theorem C67_polyhedron_refuted : exists m, stores m [tetra] /\ has_nodes m 4 /\ findCommonCells m 0 0 = Ok ([0; 0; 0], [0; 3]) /\ findCommonCells m 1 0 = Throw.
Proof. exact polyhedron_itself. Qed.
Print Assumptions C67_polyhedron_refuted.
(** Policy 7: two opposite segments write out of an array; the removal of duplicates takes two different segments as one. *)
Theorem C67_policy7_refuted : exists m m' r, stores m [(NORM_SEG2, [0; 1]); (NORM_SEG2, [1; 0])] /\ has_nodes m 2 /\ findCommonCells m 7 0 = UB /\
  stores m' [(NORM_SEG2, [0; 1]); (NORM_SEG2, [1; 0]); (NORM_SEG2, [2; 3])] /\ has_nodes m' 4 /\ zipConnectivityTraducer m' 7 0 = Ok (r, [0; 1; 0]) /\ stores r [(NORM_SEG2, [2; 3]); (NORM_SEG2, [1; 0])].
Proof. exact policy7_wrong. Qed.
Print Assumptions C67_policy7_refuted.
Theorem C67_areCellsIncludedInPolicy7_refuted : exists m, stores m [(NORM_TRI3, [0; 1; 2])] /\ has_nodes m 3 /\ areCellsIncludedInPolicy7 m m true = Ok (false, None).
Proof. exact policy7_included. Qed.
Print Assumptions C67_areCellsIncludedInPolicy7_refuted.
(** Policy 9: a cell in two groups. *)
Theorem C67_policy9_refuted : exists m, stores m arcs /\ has_nodes m 8 /\ findCommonCells m 9 0 = Ok ([0; 1; 3; 2; 3], [0; 3; 5]).
Proof. exact policy9_overlap. Qed.
Print Assumptions C67_policy9_refuted.
(** The number given to a cell that is not in the mesh may be the one of a cell of the mesh. *)
Theorem C67_missing_cell_refuted : exists m other, stores m [(NORM_TRI3, [0; 1; 2]); (NORM_TRI3, [0; 1; 2])] /\ has_nodes m 4 /\ stores other [(NORM_TRI3, [0; 1; 2]); (NORM_TRI3, [1; 2; 3])] /\ has_nodes other 4 /\
  areCellsIncludedIn m other true 2 = Ok (false, [1; 1]).
Proof. exact missing_cell. Qed.
Print Assumptions C67_missing_cell_refuted.
(** A mesh without cells: an exception, not the answer false. *)
Theorem C67_empty_mesh_refuted : exists m other, stores m [] /\ has_nodes m 3 /\ stores other [(NORM_TRI3, [0; 1; 2])] /\ has_nodes other 3 /\ areCellsIncludedIn m other true 2 = Throw.
Proof. exact empty_mesh. Qed.
Print Assumptions C67_empty_mesh_refuted.

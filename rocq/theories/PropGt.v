(** C96: the queries on the nodes and the cells of a mesh with a single geometric type. *)
From Coq Require Import QArith.
From stdpp Require Import gmap.
From Verif Require Import CellModel Base DataArray IndexSpec CellTable GlModel UmModel UmSpec MgSpec GtModel GtSpec GtProofs GtProofs2 GtProofs13 GtProofs3 GtProofs4 GtExamples.
Local Open Scope Z_scope.

(** Number of cells. *)
Theorem C96_number_of_cells : (forall m cells, s_holds m cells -> S_getNumberOfCells m = Ok (zlen cells)) /\ (forall m cells, d_holds m cells -> D_getNumberOfCells m = Ok (zlen cells)).
Proof. exact (conj s_num d_num_holds). Qed.
Example C96_number_ex : S_getNumberOfCells gt_tri = Ok 2 /\ D_getNumberOfCells gt_poly = Ok 2.
Proof. exact (conj (s_num _ _ gt_tri_holds) (d_num_holds _ _ gt_poly_holds)). Qed.
Print Assumptions C96_number_of_cells.

(** The nodes of cell [i] are those of the cell; an id beyond the last cell is refused. *)
Theorem C96_cell_static m cells : s_holds m cells ->
  (forall i c, cells @ i = Some c -> S_getNodeIdsOfCell m i = Ok c.2) /\ (forall i, zlen cells <= i -> S_getNodeIdsOfCell m i = Throw).
Proof. exact (fun H => conj (fun i c => s_cell m cells i c H) (fun i => s_cell_beyond m cells i H)). Qed.
Example C96_cell_static_ex : S_getNodeIdsOfCell gt_tri 1 = Ok [1; 3; 2].
Proof. exact (proj1 (C96_cell_static _ _ gt_tri_holds) 1 (3, [1; 3; 2]) eq_refl). Qed.
Print Assumptions C96_cell_static.
Theorem C96_cell_dynamic m cells : d_holds m cells ->
  (forall i c, cells @ i = Some c -> D_getNodeIdsOfCell m i = Ok c.2 /\ D_getNumberOfNodesInCell m i = Ok (zlen (List.filter (fun v => negb (v =? -1)) c.2))) /\
  (forall i, zlen cells <= i -> D_getNodeIdsOfCell m i = Throw) /\ (forall i, ~ 0 <= i < zlen cells -> D_getNumberOfNodesInCell m i = Throw).
Proof. exact (fun H => conj (fun i c Hc => conj (d_cell m cells i c H Hc) (d_nodesIn m cells i c H Hc)) (conj (fun i => d_cell_beyond m cells i H) (fun i => d_nodesIn_throw m cells i H))). Qed.
Example C96_cell_dynamic_ex : D_getNodeIdsOfCell gt_poly 1 = Ok [1; 2; 3].
Proof. exact (proj1 (proj1 (C96_cell_dynamic _ _ gt_poly_holds) 1 (31, [1; 2; 3]) eq_refl)). Qed.
Print Assumptions C96_cell_dynamic.
(** A negative id is not refused: both methods read before the array. *)
Theorem C96_negative_id_refuted : (forall m cells i, s_holds m cells -> i < 0 -> S_getNodeIdsOfCell m i = UB) /\ (forall m cells i, d_holds m cells -> i < 0 -> D_getNodeIdsOfCell m i = UB).
Proof. exact (conj s_cell_neg d_cell_neg). Qed.
Example C96_negative_id_ex : S_getNodeIdsOfCell gt_tri (-1) = UB.
Proof. exact (proj1 C96_negative_id_refuted _ _ (-1) gt_tri_holds eq_refl). Qed.
Print Assumptions C96_negative_id_refuted.

(** Consistency: exactly when all the nodes of the cells are nodes of the mesh. *)
Theorem C96_consistency_static m cells nb : s_holds m cells -> coords_of (sg_coords m) nb ->
  (within nb cells -> S_checkConsistency m = Ok tt) /\ (~ within nb cells -> S_checkConsistency m = Throw).
Proof. exact (s_consistency m cells nb). Qed.
Example C96_consistency_static_ex : S_checkConsistency gt_tri = Ok tt /\ S_checkConsistency (SG cm_TRI3 (Some gt_xy) (Some [0; 1; 5])) = Throw.
Proof. vm_compute. done. Qed.
Print Assumptions C96_consistency_static.
Theorem C96_consistency_dynamic m cells nb : d_packed m cells -> coords_of (dg_coords m) nb ->
  (within_sep nb cells -> D_checkConsistency m (Ok tt) = Ok tt) /\ (~ within_sep nb cells -> D_checkConsistency m (Ok tt) = Throw).
Proof. exact (d_consistency_packed m cells nb). Qed.
Example C96_consistency_dynamic_ex : D_checkConsistency gt_packed (Ok tt) = Ok tt.
Proof. vm_compute. done. Qed.
Print Assumptions C96_consistency_dynamic.
Theorem C96_consistency_unpacked m cells nb : d_holds m cells -> coords_of (dg_coords m) nb -> D_checkConsistency m (Ok tt) = Ok tt -> within_sep nb cells.
Proof. exact (d_consistency_any m cells nb). Qed.
Example C96_consistency_unpacked_ex : within_sep 5 gt_poly_cells.
Proof. exact (C96_consistency_unpacked _ _ _ gt_poly_holds gt_xyz_nodes eq_refl). Qed.
Print Assumptions C96_consistency_unpacked.
(** Whatever the arrays, an accepted mesh holds cells on its nodes. *)
Theorem C96_consistency_sound :
  (forall m nb, GetCellModel (cm_type (sg_cm m)) = Ok (sg_cm m) -> cm_dyn (sg_cm m) = false -> coords_of (sg_coords m) nb -> S_checkConsistency m = Ok tt -> exists cells, s_holds m cells /\ within nb cells) /\
  (forall m nb, GetCellModel (cm_type (dg_cm m)) = Ok (dg_cm m) -> cm_dyn (dg_cm m) = true -> coords_of (dg_coords m) nb -> D_checkConsistency m (Ok tt) = Ok tt -> exists cells, d_holds m cells /\ within_sep nb cells).
Proof. exact (conj s_sound d_sound). Qed.
Example C96_consistency_sound_ex : D_checkConsistency gt_poly (Ok tt) = Ok tt /\ D_checkConsistency (DG cm_POLYGON (Some gt_xy) (Some [0; 1; 3; 2]) (Some [0; 3; 2; 4])) (Ok tt) = Throw /\
  D_checkConsistency (DG cm_POLYGON (Some gt_xy) (Some [0; 1; 3; 2]) (Some [4; 4])) (Ok tt) = Throw /\ S_checkConsistency (SG cm_TRI3 (Some gt_xy) (Some [0; 1])) = Throw.
Proof. vm_compute. done. Qed.
Print Assumptions C96_consistency_sound.

(** Nodes in use: the number old to new of each node used by a cell, its rank; -1 for the others; the number of nodes used. *)
Theorem C96_nodes_in_use_static m cells nb : s_holds m cells -> coords_of (sg_coords m) nb ->
  (within nb cells -> exists r, S_getNodeIdsInUse m = Ok r /\ in_use cells nb r) /\ (~ within nb cells -> S_getNodeIdsInUse m = Throw).
Proof. exact (fun H Hd => wp_cases _ _ _ (s_inUse m cells nb H Hd)). Qed.
Example C96_nodes_in_use_static_ex : S_getNodeIdsInUse gt_tri = Ok ([0; 1; 2; 3; -1], 4).
Proof. vm_compute. done. Qed.
Print Assumptions C96_nodes_in_use_static.
Theorem C96_nodes_in_use_dynamic m cells nb : d_holds m cells -> coords_of (dg_coords m) nb ->
  (within_sep nb cells -> exists r, D_getNodeIdsInUse m = Ok r /\ in_use cells nb r) /\ (~ within_sep nb cells -> D_getNodeIdsInUse m = Throw).
Proof. exact (fun H Hd => wp_cases _ _ _ (d_inUse m cells nb H Hd)). Qed.
Example C96_nodes_in_use_dynamic_ex : D_getNodeIdsInUse gt_poly = Ok ([0; 1; 2; 3; -1], 4).
Proof. vm_compute. done. Qed.
Print Assumptions C96_nodes_in_use_dynamic.

(** The ids of the nodes of the cells, ascending, each once. *)
Theorem C96_fetched_static m cells nb : s_holds m cells -> coords_of (sg_coords m) nb ->
  (within nb cells -> exists l, S_computeFetchedNodeIds m = Ok l /\ ascending l /\ forall n, n ∈ l <-> used cells n) /\ (~ within nb cells -> S_computeFetchedNodeIds m = Throw).
Proof. exact (fun H Hd => wp_cases _ _ _ (s_fetched m cells nb H Hd)). Qed.
Example C96_fetched_static_ex : S_computeFetchedNodeIds gt_tri = Ok [0; 1; 2; 3].
Proof. vm_compute. done. Qed.
Print Assumptions C96_fetched_static.
Theorem C96_fetched_dynamic_partial m cells nb : d_packed m cells -> coords_of (dg_coords m) nb ->
  (within_sep nb cells -> exists l, D_computeFetchedNodeIds m = Ok l /\ ascending l /\ forall n, n ∈ l <-> used cells n) /\ (~ within_sep nb cells -> D_computeFetchedNodeIds m = Throw).
Proof. exact (fun H Hd => wp_cases _ _ _ (d_fetched m cells nb H Hd)). Qed.
Example C96_fetched_dynamic_ex : D_computeFetchedNodeIds gt_packed = Ok [0; 1; 2; 3].
Proof. vm_compute. done. Qed.
Print Assumptions C96_fetched_dynamic_partial.
(** Not when the connectivity has holes: a node of no cell is reported. *)
Theorem C96_fetched_unpacked_refuted : exists m cells nb, d_holds m cells /\ coords_of (dg_coords m) nb /\ within_sep nb cells /\ exists l, D_computeFetchedNodeIds m = Ok l /\ 4 ∈ l /\ ~ used cells 4.
Proof. exact fetched_unpacked. Qed.
Print Assumptions C96_fetched_unpacked_refuted.

(** Renumbering of the nodes: by an offset, by an array old to new, by a map. *)
Theorem C96_renumber_static m cells : s_holds m cells ->
  (forall o, (forall c v, c ∈ cells -> v ∈ c.2 -> 0 <= v) -> exists m', S_renumberNodesWithOffsetInConn m o = Ok m' /\ s_holds m' (rename (fun v => v + o) <$> cells) /\ sg_coords m' = sg_coords m) /\
  (forall nb p, coords_of (sg_coords m) nb -> nb <= zlen p ->
    (within nb cells -> exists m', S_renumberNodesInConn m p = Ok m' /\ s_holds m' (rename (ren p) <$> cells) /\ sg_coords m' = sg_coords m) /\ (~ within nb cells -> S_renumberNodesInConn m p = Throw)) /\
  (forall p : gmap Z Z,
    ((forall c v, c ∈ cells -> v ∈ c.2 -> 0 <= v /\ is_Some (p !! v)) -> exists m', S_renumberNodesInConnT m p = Ok m' /\ s_holds m' (rename (mren p) <$> cells) /\ sg_coords m' = sg_coords m) /\
    ((exists c v, c ∈ cells /\ v ∈ c.2 /\ p !! v = None) -> S_renumberNodesInConnT m p = Throw)).
Proof. exact (fun H => conj (fun o => s_offset m cells o H) (conj (fun nb p => s_array m cells nb p H) (fun p => s_map m cells p H))). Qed.
Example C96_renumber_static_ex : S_renumberNodesInConn gt_tri [4; 3; 2; 1; 0] = Ok (SG cm_TRI3 (Some gt_xy) (Some [4; 3; 2; 3; 1; 2])).
Proof. vm_compute. done. Qed.
Print Assumptions C96_renumber_static.
Theorem C96_renumber_dynamic m cells : d_packed m cells ->
  (forall o, separators cells -> exists m', D_renumberNodesWithOffsetInConn m o = Ok m' /\ d_packed m' (rename (fun v => v + o) <$> cells) /\ dg_coords m' = dg_coords m) /\
  (forall nb p, coords_of (dg_coords m) nb -> nb <= zlen p ->
    (within_sep nb cells -> exists m', D_renumberNodesInConn m p = Ok m' /\ d_packed m' (rename (ren p) <$> cells) /\ dg_coords m' = dg_coords m) /\ (~ within_sep nb cells -> D_renumberNodesInConn m p = Throw)) /\
  (forall p : gmap Z Z,
    ((forall c v, c ∈ cells -> v ∈ c.2 -> v = -1 \/ 0 <= v /\ is_Some (p !! v)) -> exists m', D_renumberNodesInConnT m p = Ok m' /\ d_packed m' (rename (mren p) <$> cells) /\ dg_coords m' = dg_coords m) /\
    ((exists c v, c ∈ cells /\ v ∈ c.2 /\ v <> -1 /\ (v < 0 \/ p !! v = None)) -> D_renumberNodesInConnT m p = Throw)).
Proof. exact (fun H => conj (fun o => d_offset_packed m cells o H) (conj (fun nb p => d_array m cells nb p H) (fun p => d_map m cells p H))). Qed.
Example C96_renumber_dynamic_ex : D_renumberNodesInConn (DG cm_POLYHED (Some gt_xyz) (Some [0; 1; 2; -1; 2; 3; 0]) (Some [0; 7])) [4; 3; 2; 1; 0] = Ok (DG cm_POLYHED (Some gt_xyz) (Some [4; 3; 2; -1; 2; 1; 4]) (Some [0; 7])).
Proof. vm_compute. done. Qed.
Print Assumptions C96_renumber_dynamic.
(** With holes in the connectivity: the same cells are renamed, when the renumbering succeeds. *)
Theorem C96_renumber_unpacked m cells : d_holds m cells ->
  (forall o, separators cells -> exists m', D_renumberNodesWithOffsetInConn m o = Ok m' /\ d_holds m' (rename (fun v => v + o) <$> cells) /\ dg_coords m' = dg_coords m) /\
  (forall m' nb p, coords_of (dg_coords m) nb -> D_renumberNodesInConn m p = Ok m' -> d_holds m' (rename (ren p) <$> cells) /\ dg_coords m' = dg_coords m).
Proof. exact (fun H => conj (fun o => d_offset m cells o H) (fun m' nb p => d_array_any m m' cells nb p H)). Qed.
Example C96_renumber_unpacked_ex : exists m', D_renumberNodesInConn gt_poly [4; 3; 2; 1; 0] = Ok m' /\ d_holds m' (rename (ren [4; 3; 2; 1; 0]) <$> gt_poly_cells).
Proof. destruct (D_renumberNodesInConn gt_poly [4; 3; 2; 1; 0]) as [m'| | |] eqn:E; [|vm_compute in E; discriminate E..]. exact (ex_intro _ m' (conj eq_refl (proj1 (proj2 (C96_renumber_unpacked _ _ gt_poly_holds) m' 5 _ gt_xyz_nodes E)))). Qed.
Print Assumptions C96_renumber_unpacked.

(** The cells that lie on given nodes. *)
Theorem C96_lying_on_partial : (forall m cells ids b, s_holds m cells -> cells <> [] -> exists l, S_fillCellIdsToKeepFromNodeIds m ids b = Ok l /\ ascending l /\ forall i, i ∈ l <-> exists c, cells @ i = Some c /\ lies_on b ids c) /\
  (forall m cells ids b, d_holds m cells -> (exists c, c ∈ cells /\ c.2 <> []) -> exists l, D_fillCellIdsToKeepFromNodeIds m ids b = Ok l /\ ascending l /\ forall i, i ∈ l <-> exists c, cells @ i = Some c /\ lies_on b ids c).
Proof. exact (conj s_keep d_keep). Qed.
Example C96_lying_on_ex : S_fillCellIdsToKeepFromNodeIds gt_tri [1; 2; 3; 9; -4] true = Ok [1] /\ D_fillCellIdsToKeepFromNodeIds gt_poly [0; 4] false = Ok [0].
Proof. vm_compute. done. Qed.
Print Assumptions C96_lying_on_partial.
(** A mesh without cells (or whose cells have no node) is refused, where one of the general class gives no cell. *)
Theorem C96_lying_on_empty_refuted : (forall m ids b, s_holds m [] -> S_fillCellIdsToKeepFromNodeIds m ids b = Throw) /\
  (forall m cells ids b, d_packed m cells -> (forall c, c ∈ cells -> c.2 = []) -> D_fillCellIdsToKeepFromNodeIds m ids b = Throw).
Proof. exact (conj s_keep_none d_keep_none). Qed.
Example C96_lying_on_empty_ex : S_fillCellIdsToKeepFromNodeIds (SG cm_TRI3 (Some gt_xy) (Some [])) [0] true = Throw.
Proof. vm_compute. done. Qed.
Print Assumptions C96_lying_on_empty_refuted.

(** Reverse connectivity: the cells of each node. *)
Theorem C96_reverse_static m cells nb : s_holds m cells -> coords_of (sg_coords m) nb ->
  (within nb cells -> exists r rI, S_getReverseNodalConnectivity m = Ok (r, rI) /\ skyline (cells_of_node 0 cells <$> seqZ 0 nb) r rI) /\ (~ within nb cells -> S_getReverseNodalConnectivity m = Throw).
Proof. exact (s_rev m cells nb). Qed.
Example C96_reverse_static_ex : S_getReverseNodalConnectivity gt_tri = Ok ([0; 0; 1; 0; 1; 1], [0; 1; 3; 5; 6; 6]).
Proof. vm_compute. done. Qed.
Print Assumptions C96_reverse_static.
Theorem C96_reverse_dynamic m cells nb : d_holds m cells -> coords_of (dg_coords m) nb ->
  (within_sep nb cells -> exists r rI, D_getReverseNodalConnectivity m = Ok (r, rI) /\ skyline (cells_of_node 0 cells <$> seqZ 0 nb) r rI) /\ (~ within_sep nb cells -> D_getReverseNodalConnectivity m = Throw).
Proof. exact (d_rev m cells nb). Qed.
Example C96_reverse_dynamic_ex : D_getReverseNodalConnectivity gt_poly = Ok ([0; 0; 0; 0; 0; 0; 1; 0; 0; 0; 1; 0; 0; 0; 1], [0; 3; 7; 11; 15; 15]).
Proof. vm_compute. done. Qed.
Print Assumptions C96_reverse_dynamic.

(** Number of different nodes of each cell. *)
Theorem C96_effective_number : (forall m cells, s_holds m cells -> exists l, S_computeEffectiveNbOfNodesPerCell m = Ok (Some <$> l) /\ zlen l = zlen cells /\
    forall i (c : cell) k, cells @ i = Some c -> l @ i = Some k -> exists ns, NoDup ns /\ (forall v, v ∈ ns <-> v ∈ c.2) /\ zlen ns = k) /\
  (forall m cells, d_holds m cells -> dg_coords m <> None -> exists l, D_computeEffectiveNbOfNodesPerCell m = Ok (Some <$> l) /\ zlen l = zlen cells /\
    forall i (c : cell) k, cells @ i = Some c -> l @ i = Some k -> exists ns, NoDup ns /\ (forall v, v ∈ ns <-> v ∈ nodes_of c) /\ zlen ns = k).
Proof. exact (conj s_effective d_effective). Qed.
Example C96_effective_ex : S_computeEffectiveNbOfNodesPerCell (SG cm_TRI3 None (Some [0; 1; 1; 1; 3; 2])) = Ok [Some 2; Some 3] /\ D_computeEffectiveNbOfNodesPerCell gt_poly = Ok [Some 4; Some 3].
Proof. vm_compute. done. Qed.
Print Assumptions C96_effective_number.
(** Number of nodes and of faces of each cell. *)
Theorem C96_number_of_nodes m cells : d_holds m cells -> dg_coords m <> None -> D_computeNbOfNodesPerCell m = Ok (Some <$> ((fun c : cell => zlen (nodes_of c)) <$> cells)).
Proof. exact (d_nbNodes m cells). Qed.
Example C96_number_of_nodes_ex : D_computeNbOfNodesPerCell gt_poly = Ok [Some 12; Some 3].
Proof. vm_compute. done. Qed.
Print Assumptions C96_number_of_nodes.
Theorem C96_number_of_faces m cells : d_holds m cells -> dg_coords m <> None -> exists l, D_computeNbOfFacesPerCell m = Ok (Some <$> l) /\ zlen l = zlen cells /\
  forall i (c : cell) k, cells @ i = Some c -> l @ i = Some k ->
    (c.1 = NORM_POLYHED -> forall fs, fs <> [] -> (forall f, f ∈ fs -> -1 ∉ f) -> c.2 = with_separators fs -> k = zlen fs) /\ (c.1 = NORM_QPOLYG -> k = zlen c.2 / 2) /\ (c.1 <> NORM_POLYHED -> c.1 <> NORM_QPOLYG -> k = zlen c.2).
Proof. exact (d_nbFaces m cells). Qed.
Example C96_number_of_faces_ex : D_computeNbOfFacesPerCell gt_poly = Ok [Some 4; Some 1] /\ with_separators [[0; 1; 2]; [0; 3; 1]; [1; 3; 2]; [2; 3; 0]] = [0; 1; 2; -1; 0; 3; 1; -1; 1; 3; 2; -1; 2; 3; 0].
Proof. vm_compute. done. Qed.
Print Assumptions C96_number_of_faces.

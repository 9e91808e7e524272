(** C98: parts, renumbering, insertion, packing and merge of meshes with a single geometric type. *)
From Coq Require Import QArith.
From stdpp Require Import gmap.
From Verif Require Import CellModel Base DataArray SlicesSpec RenumSpec IndexSpec CellTable GlModel UmModel UmSpec MgSpec GtModel GtSpec GtSpec2 GtProofs GtProofs2 GtProofs4 GtProofs5 GtProofs6 GtProofs7 GtProofs8 GtProofs9 GtProofs10 GtProofs11 GtProofs12 GtExamples GtExamples2.
Local Open Scope Z_scope.

(** A part given by the ids of its cells: these cells, in this order; an id out of the mesh is refused. *)
Theorem C98_part_static m cells ids : s_holds m cells ->
  (forall sel, picked cells ids sel -> exists m', S_buildPartOfMySelfKeepCoords m ids = Ok m' /\ s_holds m' sel /\ sg_cm m' = sg_cm m /\ sg_coords m' = sg_coords m) /\
  (S_buildPartOfMySelfKeepCoords m ids = Throw <-> exists v, v ∈ ids /\ ~ 0 <= v < zlen cells).
Proof. exact (fun H => conj (s_part m cells H ids) (s_part_throw m cells H ids)). Qed.
Example C98_part_static_ex : s_holds gt_tri gt_tri_cells /\ S_buildPartOfMySelfKeepCoords gt_tri [1; 1; 0] = Ok (SG cm_TRI3 (Some gt_xy) (Some [1; 3; 2; 1; 3; 2; 0; 1; 2])).
Proof. split; [apply gt_tri_holds|vm_compute; done]. Qed.
Print Assumptions C98_part_static.
Theorem C98_part_dynamic m cells ids : d_holds m cells -> dg_coords m <> None ->
  (forall sel, picked cells ids sel -> exists m', D_buildPartOfMySelfKeepCoords m ids = Ok m' /\ d_packed m' sel /\ dg_cm m' = dg_cm m /\ dg_coords m' = dg_coords m) /\
  (D_buildPartOfMySelfKeepCoords m ids = Throw <-> exists v, v ∈ ids /\ ~ 0 <= v < zlen cells).
Proof. exact (fun H Hc => conj (fun sel => d_part m cells H ids sel Hc) (d_part_throw m cells H ids Hc)). Qed.
Example C98_part_dynamic_ex : d_holds gt_poly gt_poly_cells /\ D_buildPartOfMySelfKeepCoords gt_poly [1; 1] = Ok (DG cm_POLYHED (Some gt_xyz) (Some [1; 2; 3; 1; 2; 3]) (Some [0; 3; 6])).
Proof. split; [apply gt_poly_holds|vm_compute; done]. Qed.
Print Assumptions C98_part_dynamic.

(** A part given by a range. *)
Theorem C98_slice_static m cells b e s : s_holds m cells ->
  (forall ids sel, valid_range b e s -> is_range_list b e s ids -> picked cells ids sel ->
     exists m', S_buildPartOfMySelfKeepCoordsSlice m b e s = Ok m' /\ s_holds m' sel /\ sg_cm m' = sg_cm m /\ sg_coords m' = sg_coords m) /\
  (~ valid_range b e s \/ (exists ids v, is_range_list b e s ids /\ v ∈ ids /\ ~ 0 <= v < zlen cells) -> S_buildPartOfMySelfKeepCoordsSlice m b e s = Throw).
Proof. exact (fun H => conj (s_slice m cells H b e s) (s_slice_throw m cells H b e s)). Qed.
Example C98_slice_static_ex : S_buildPartOfMySelfKeepCoordsSlice gt_tri 1 (-1) (-1) = Ok (SG cm_TRI3 (Some gt_xy) (Some [1; 3; 2; 0; 1; 2])).
Proof. vm_compute. done. Qed.
Print Assumptions C98_slice_static.
Theorem C98_slice_dynamic m cells b e s ids : d_holds m cells -> dg_coords m <> None -> valid_range b e s -> is_range_list b e s ids ->
  D_buildPartOfMySelfKeepCoordsSlice m b e s = D_buildPartOfMySelfKeepCoords m ids.
Proof. exact (fun H => d_slice m cells H b e s ids). Qed.
Example C98_slice_dynamic_ex : D_buildPartOfMySelfKeepCoordsSlice gt_poly 1 (-1) (-1) = D_buildPartOfMySelfKeepCoords gt_poly [1; 0].
Proof. vm_compute. done. Qed.
Print Assumptions C98_slice_dynamic.

(** Renumbering by a permutation: cell [i] becomes cell [l @ i]. *)
Theorem C98_renumber_static m cells l : s_holds m cells -> zlen l = zlen cells -> NoDup l -> (forall v, v ∈ l -> 0 <= v < zlen cells) ->
  exists m' sel, S_renumberCells m l false = Ok m' /\ s_holds m' sel /\ sg_cm m' = sg_cm m /\ sg_coords m' = sg_coords m /\ sel ≡ₚ cells /\ forall i t, l @ i = Some t -> sel @ t = cells @ i.
Proof. exact (s_renum m cells l). Qed.
Example C98_renumber_static_ex : NoDup [1; 0] /\ S_renumberCells gt_tri [1; 0] false = Ok (SG cm_TRI3 (Some gt_xy) (Some [1; 3; 2; 0; 1; 2])).
Proof. split; [apply (bool_decide_unpack _); vm_compute; done|vm_compute; done]. Qed.
Print Assumptions C98_renumber_static.
Theorem C98_renumber_dynamic_partial m cells l : d_packed m cells -> zlen l = zlen cells -> NoDup l -> (forall v, v ∈ l -> 0 <= v < zlen cells) ->
  exists m' sel, D_renumberCells m l false = Ok m' /\ d_packed m' sel /\ dg_cm m' = dg_cm m /\ dg_coords m' = dg_coords m /\ sel ≡ₚ cells /\ forall i t, l @ i = Some t -> sel @ t = cells @ i.
Proof. exact (d_renum m cells l). Qed.
Example C98_renumber_dynamic_ex : d_packed gt_packed gt_poly_cells /\ D_renumberCells gt_packed [1; 0] false = Ok (DG cm_POLYHED (Some gt_xyz) (Some [1; 2; 3; 0; 1; 2; -1; 0; 3; 1; -1; 1; 3; 2; -1; 2; 3; 0]) (Some [0; 3; 18])).
Proof. split; [apply gt_packed_holds|vm_compute; done]. Qed.
Print Assumptions C98_renumber_dynamic_partial.
(** With a connectivity that holds more than the cells the new connectivity ends with values that were never written. *)
Theorem C98_renumber_unpacked_refuted : exists m cells l, d_holds m cells /\ zlen l = zlen cells /\ NoDup l /\ (forall v, v ∈ l -> 0 <= v < zlen cells) /\ D_renumberCells m l false = UB.
Proof. exact renum_hole. Qed.
Print Assumptions C98_renumber_unpacked_refuted.
(** Renumbering by any values: the cells in the order of these values; a value given twice is refused. *)
Theorem C98_renumber_check_static m cells l0 : s_holds m cells -> zlen l0 = zlen cells ->
  (NoDup l0 -> exists m' sel, S_renumberCells m l0 true = Ok m' /\ s_holds m' sel /\ sg_cm m' = sg_cm m /\ sg_coords m' = sg_coords m /\ sel ≡ₚ cells /\
    forall i j a b p q, l0 @ i = Some a -> l0 @ j = Some b -> a < b -> cells @ i = Some p -> cells @ j = Some q -> exists s t, s < t /\ sel @ s = Some p /\ sel @ t = Some q) /\
  (~ NoDup l0 -> S_renumberCells m l0 true = Throw).
Proof. exact (s_renum_check m cells l0). Qed.
Example C98_renumber_check_static_ex : S_renumberCells gt_tri [7; -3] true = Ok (SG cm_TRI3 (Some gt_xy) (Some [1; 3; 2; 0; 1; 2])) /\ S_renumberCells gt_tri [4; 4] true = Throw.
Proof. split; vm_compute; done. Qed.
Print Assumptions C98_renumber_check_static.
Theorem C98_renumber_check_dynamic_partial m cells l0 : d_packed m cells -> zlen l0 = zlen cells ->
  (NoDup l0 -> exists m' sel, D_renumberCells m l0 true = Ok m' /\ d_packed m' sel /\ dg_cm m' = dg_cm m /\ dg_coords m' = dg_coords m /\ sel ≡ₚ cells /\
    forall i j a b p q, l0 @ i = Some a -> l0 @ j = Some b -> a < b -> cells @ i = Some p -> cells @ j = Some q -> exists s t, s < t /\ sel @ s = Some p /\ sel @ t = Some q) /\
  (~ NoDup l0 -> D_renumberCells m l0 true = Throw).
Proof. exact (d_renum_check m cells l0). Qed.
Example C98_renumber_check_dynamic_ex : D_renumberCells gt_packed [9; 2] true = D_renumberCells gt_packed [1; 0] false /\ D_renumberCells gt_packed [9; 9] true = Throw.
Proof. split; vm_compute; done. Qed.
Print Assumptions C98_renumber_check_dynamic_partial.

(** A cell added at the end. *)
Theorem C98_insert_static m cells nodes : s_holds m cells ->
  (zlen nodes = cm_nbpts (sg_cm m) -> exists m', S_insertNextCell m nodes = Ok m' /\ s_holds m' (cells ++ [(cm_type (sg_cm m), nodes)]) /\ sg_cm m' = sg_cm m /\ sg_coords m' = sg_coords m) /\
  (zlen nodes <> cm_nbpts (sg_cm m) -> S_insertNextCell m nodes = Throw).
Proof. exact (fun H => s_insert m cells H nodes). Qed.
Example C98_insert_static_ex : S_insertNextCell gt_tri [3; 4; 2] = Ok (SG cm_TRI3 (Some gt_xy) (Some [0; 1; 2; 1; 3; 2; 3; 4; 2])) /\ S_insertNextCell gt_tri [3; 4] = Throw.
Proof. split; vm_compute; done. Qed.
Print Assumptions C98_insert_static.
Theorem C98_insert_dynamic m cells nodes :
  (d_packed m cells -> exists m', D_insertNextCell m nodes = Ok m' /\ d_packed m' (cells ++ [(cm_type (dg_cm m), nodes)]) /\ dg_cm m' = dg_cm m /\ dg_coords m' = dg_coords m) /\
  (forall conn, d_holds m cells -> dg_conn m = Some conn -> (exists connI, dg_connI m = Some connI /\ connI @ (zlen connI - 1) <> Some (zlen conn)) -> D_insertNextCell m nodes = Throw).
Proof. exact (conj (d_insert m cells nodes) (d_insert_throw m cells nodes)). Qed.
Example C98_insert_dynamic_ex : D_insertNextCell gt_quad [3; 4; 2] = Ok (DG cm_POLYGON (Some gt_xy) (Some [0; 1; 3; 2; 3; 4; 2]) (Some [0; 4; 7])) /\ D_insertNextCell gt_poly [3; 4; 2] = Throw.
Proof. split; vm_compute; done. Qed.
Print Assumptions C98_insert_dynamic.
(** From nothing: no cell; a negative number of cells is refused. *)
Theorem C98_allocate :
  (forall m n, GetCellModel (cm_type (sg_cm m)) = Ok (sg_cm m) -> cm_dyn (sg_cm m) = false ->
    (0 <= n -> exists m', S_allocateCells m n = Ok m' /\ s_holds m' [] /\ sg_cm m' = sg_cm m /\ sg_coords m' = sg_coords m) /\ (n < 0 -> S_allocateCells m n = Throw)) /\
  (forall m n, GetCellModel (cm_type (dg_cm m)) = Ok (dg_cm m) -> cm_dyn (dg_cm m) = true ->
    (0 <= n -> exists m', D_allocateCells m n = Ok m' /\ d_packed m' [] /\ dg_cm m' = dg_cm m /\ dg_coords m' = dg_coords m) /\ (n < 0 -> D_allocateCells m n = Throw)).
Proof. exact (conj s_allocate d_allocate). Qed.
Example C98_allocate_ex : S_allocateCells gt_tri 4 = Ok (SG cm_TRI3 (Some gt_xy) (Some [])) /\ D_allocateCells gt_poly 4 = Ok (DG cm_POLYHED (Some gt_xyz) (Some []) (Some [0])).
Proof. split; vm_compute; done. Qed.
Print Assumptions C98_allocate.

(** The test of packing and the packed copy: the same cells, the mesh itself when it was packed. *)
Theorem C98_packed m cells : d_holds m cells -> dg_coords m <> None ->
  (exists b, D_isPacked m = Ok b /\ (b = true <-> d_packed m cells)) /\
  exists m' b, D_copyWithNodalConnectivityPacked m = Ok (m', b) /\ d_packed m' cells /\ dg_coords m' = dg_coords m /\ dg_cm m' = dg_cm m /\ (b = true <-> d_packed m cells) /\ (b = true -> m' = m).
Proof. exact (fun H Hc => conj (d_isPacked m cells H Hc) (d_pack m cells H Hc)). Qed.
Example C98_packed_ex : d_holds gt_poly gt_poly_cells /\ D_isPacked gt_poly = Ok false /\ D_copyWithNodalConnectivityPacked gt_poly = Ok (gt_packed, false).
Proof. split; [apply gt_poly_holds|split; vm_compute; done]. Qed.
Print Assumptions C98_packed.

(** Merge: the cells of the meshes one after the other, on the nodes of the meshes one after the other.
    A mesh without connectivity has no cell, a mesh without coordinates no node. *)
Theorem C98_merge_static k sd ms info : GetCellModel (cm_type k) = Ok k -> cm_dyn k = false -> Forall2 (fun m p => s_brings k sd m p /\ no_negative p.1) ms info -> (exists m, m ∈ ms /\ is_Some (sg_coords m)) ->
  exists m', S_Merge1SGTUMeshes ms = Ok m' /\ sg_cm m' = k /\ s_holds m' (side_by_side 0 info) /\ nodes_in (nodes_only (sg_coords m')) sd (zsum (snd <$> info)) /\
    forall i m j q, ms @ i = Some m -> point (nodes_only (sg_coords m)) j q -> point (nodes_only (sg_coords m')) (nodes_before info i + j) q.
Proof. exact (s_merge k sd ms info). Qed.
Example C98_merge_static_ex : Forall2 (fun m p => s_brings cm_TRI3 2 m p /\ no_negative p.1) [gt_tri; SG cm_TRI3 None None; gt_tri] [(gt_tri_cells, 5); ([], 0); (gt_tri_cells, 5)] /\
  (let* m := S_Merge1SGTUMeshes [gt_tri; SG cm_TRI3 None None; gt_tri] in Ok (sg_conn m)) = Ok (Some [0; 1; 2; 1; 3; 2; 5; 6; 7; 6; 8; 7]).
Proof. split; [exact gt_tri_merge|vm_compute; done]. Qed.
Print Assumptions C98_merge_static.
Theorem C98_merge_dynamic k sd ms info : GetCellModel (cm_type k) = Ok k -> cm_dyn k = true -> Forall2 (fun m p => d_brings k sd m p /\ separators p.1) ms info -> (exists m, m ∈ ms /\ is_Some (dg_coords m)) ->
  exists m', D_Merge1DGTUMeshes ms = Ok m' /\ dg_cm m' = k /\ d_packed m' (side_by_side 0 info) /\ nodes_in (nodes_only (dg_coords m')) sd (zsum (snd <$> info)) /\
    forall i m j q, ms @ i = Some m -> point (nodes_only (dg_coords m)) j q -> point (nodes_only (dg_coords m')) (nodes_before info i + j) q.
Proof. exact (d_merge k sd ms info). Qed.
Example C98_merge_dynamic_ex : Forall2 (fun m p => d_brings cm_POLYHED 3 m p /\ separators p.1) [gt_poly; DG cm_POLYHED None None None; gt_packed] [(gt_poly_cells, 5); ([], 0); (gt_poly_cells, 5)] /\
  (let* m := D_Merge1DGTUMeshes [gt_poly; DG cm_POLYHED None None None; gt_packed] in Ok (dg_conn m, dg_connI m)) =
    Ok (Some [0; 1; 2; -1; 0; 3; 1; -1; 1; 3; 2; -1; 2; 3; 0; 1; 2; 3; 5; 6; 7; -1; 5; 8; 6; -1; 6; 8; 7; -1; 7; 8; 5; 6; 7; 8], Some [0; 15; 18; 33; 36]).
Proof. split; [exact gt_poly_merge|vm_compute; done]. Qed.
Print Assumptions C98_merge_dynamic.
(** No mesh, different types, no coordinates at all or different dimensions of space are refused. *)
Theorem C98_merge_refused_static ms :
  (ms = [] \/ (exists m m', m ∈ ms /\ m' ∈ ms /\ cm_type (sg_cm m) <> cm_type (sg_cm m')) \/ (forall m, m ∈ ms -> sg_coords m = None) -> S_Merge1SGTUMeshes ms = Throw) /\
  forall k, GetCellModel (cm_type k) = Ok k -> cm_dyn k = false -> (forall m, m ∈ ms -> exists sd p, s_brings k sd m p) ->
    (exists m m' d d', m ∈ ms /\ m' ∈ ms /\ sg_coords m = Some d /\ sg_coords m' = Some d' /\ da_nc d <> da_nc d') -> S_Merge1SGTUMeshes ms = Throw.
Proof. exact (conj (s_merge_throw ms) (fun k => s_merge_dims k ms)). Qed.
Example C98_merge_refused_static_ex : S_Merge1SGTUMeshes [gt_tri; SG cm_TRI3 (Some gt_xyz) (Some [])] = Throw /\ S_Merge1SGTUMeshes [gt_tri; SG cm_QUAD4 (Some gt_xy) (Some [])] = Throw.
Proof. split; vm_compute; done. Qed.
Print Assumptions C98_merge_refused_static.
Theorem C98_merge_refused_dynamic ms :
  (ms = [] \/ (exists m m', m ∈ ms /\ m' ∈ ms /\ cm_type (dg_cm m) <> cm_type (dg_cm m')) \/ (forall m, m ∈ ms -> dg_coords m = None) -> D_Merge1DGTUMeshes ms = Throw) /\
  forall k, GetCellModel (cm_type k) = Ok k -> cm_dyn k = true -> (forall m, m ∈ ms -> exists sd p, d_brings k sd m p) ->
    (exists m m' d d', m ∈ ms /\ m' ∈ ms /\ dg_coords m = Some d /\ dg_coords m' = Some d' /\ da_nc d <> da_nc d') -> D_Merge1DGTUMeshes ms = Throw.
Proof. exact (conj (d_merge_throw ms) (fun k => d_merge_dims k ms)). Qed.
Example C98_merge_refused_dynamic_ex : D_Merge1DGTUMeshes [gt_quad; DG cm_POLYGON (Some gt_xyz) (Some []) (Some [0])] = Throw /\ D_Merge1DGTUMeshes [gt_quad; gt_poly] = Throw.
Proof. split; vm_compute; done. Qed.
Print Assumptions C98_merge_refused_dynamic.

(** A polygon from its parts, given in any order after the first one and starting at different nodes: the nodes met from the first part on. *)
Theorem C98_polygon_partial p0 rest qs v : (forall p, p ∈ rest -> p <> []) -> NoDup (head <$> rest) -> last p0 = Some v -> follow v qs -> qs ≡ₚ rest ->
  BuildAPolygonFromParts (p0 :: rest) = Ok (line_of p0 qs).
Proof. exact (line_ok p0 rest qs v). Qed.
Example C98_polygon_ex : follow 1 [[1; 5; 2]; [2; 3]; [3; 0]] /\ BuildAPolygonFromParts [[0; 1]; [3; 0]; [1; 5; 2]; [2; 3]] = Ok [0; 1; 5; 2; 3] /\ line_of [0; 1] [[1; 5; 2]; [2; 3]; [3; 0]] = [0; 1; 5; 2; 3].
Proof. split; [repeat (eexists; split; [done|split; [done|]]); done|split; vm_compute; done]. Qed.
Print Assumptions C98_polygon_partial.
Theorem C98_polygon_open p0 rest v : rest <> [] -> (forall p, p ∈ rest -> p <> []) -> last p0 = Some v -> (forall p, p ∈ rest -> head p <> Some v) -> BuildAPolygonFromParts (p0 :: rest) = Throw.
Proof. exact (line_throw p0 rest v). Qed.
Example C98_polygon_open_ex : BuildAPolygonFromParts [[0; 1]; [2; 3]] = Throw.
Proof. vm_compute. done. Qed.
Print Assumptions C98_polygon_open.
(** Parts that are not those of a single polygon are not always refused: a part is taken twice, another one is left out. *)
Theorem C98_polygon_refuted : exists parts r, BuildAPolygonFromParts parts = Ok r /\ ~ NoDup r /\ exists p v, p ∈ parts /\ v ∈ p /\ v ∉ r.
Proof. exact line_bad. Qed.
Print Assumptions C98_polygon_refuted.

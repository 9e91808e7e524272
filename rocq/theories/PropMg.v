(** C74: meshes merged, put on the same coordinates, nodes merged across meshes, meshes of points.  C75: meshes aggregated type by type. *)
From Coq Require Import QArith.
From Verif Require Import Base DataArray IndexSpec RenumSpec PartSpec TreeSpec CellTable UmModel UmSpec UcProofs6 TyModel TySpec TyExamples MgModel MgSpec MgProofs MgProofs2 MgProofs3 MgProofs4 MgExamples.
Local Open Scope Z_scope.

(** The merge: the cells of the meshes one after the other, on the nodes of the meshes one after the other, each point where it was. *)
Theorem C74_merged_meshes d sd ms info : 0 <= d -> Forall2 (fun m p => brings m sd p.1 p.2 /\ um_dim m = d /\ separators p.1) ms info -> (exists m, m ∈ ms /\ is_Some (um_coords m)) ->
  exists m', MergeUMeshes (Some <$> ms) = Ok m' /\ stores m' (side_by_side 0 info) /\ typed m' (side_by_side 0 info) /\ um_dim m' = d /\ nodes_in m' sd (zsum (snd <$> info)) /\
    forall i m k q, ms @ i = Some m -> point m k q -> point m' (nodes_before info i + k) q.
Proof. exact (merge_meshes_ok d sd ms info). Qed.
Print Assumptions C74_merged_meshes.
Example C74_merged_meshes_plane : Forall2 (fun m p => brings m 2 p.1 p.2 /\ um_dim m = 2 /\ separators p.1) [tri_a; bare; tri_b] [([(NORM_TRI3, [0; 1; 2])], 3); ([], 0); ([(NORM_POLYGON, [2; 0; 1])], 4)] /\
  side_by_side 0 [([(NORM_TRI3, [0; 1; 2])], 3); ([], 0); ([(NORM_POLYGON, [2; 0; 1])], 4)] = [(NORM_TRI3, [0; 1; 2]); (NORM_POLYGON, [5; 3; 4])] /\
  MergeUMeshes [Some tri_a; Some bare; Some tri_b] = Ok (UM 2 (Some both) (Some [NORM_TRI3; 0; 1; 2; NORM_POLYGON; 5; 3; 4]) (Some [0; 4; 8]) [NORM_TRI3; NORM_POLYGON]).
Proof. split; [exact merged_example|]. split; [exact side_example|]. vm_compute. reflexivity. Qed.
(** Refused: no mesh, no coordinates at all, different dimensions. *)
Theorem C74_merge_refused ms : (forall m, m ∈ ms -> exists sd cs nb, brings m sd cs nb) ->
  ms = [] \/ (forall m, m ∈ ms -> um_coords m = None) \/ (exists m, m ∈ ms /\ um_dim m < 0) \/ (exists m m', m ∈ ms /\ m' ∈ ms /\ um_dim m <> um_dim m') \/
    (exists m m' x x', m ∈ ms /\ m' ∈ ms /\ um_coords m = Some x /\ um_coords m' = Some x' /\ da_nc x <> da_nc x') -> MergeUMeshes (Some <$> ms) = Throw.
Proof. exact (merge_meshes_throw ms). Qed.
Print Assumptions C74_merge_refused.
Theorem C74_merge_null l : None ∈ l -> MergeUMeshes l = Throw.
Proof. exact (merge_null_throw l). Qed.
Print Assumptions C74_merge_null.
Example C74_merge_refused_ex : MergeUMeshes [Some bare; Some bare] = Throw /\ MergeUMeshes [Some tri_a; Some mixed] = Throw /\ MergeUMeshes [Some tri_a; None] = Throw.
Proof. split; [|split]; vm_compute; reflexivity. Qed.

(** The meshes put on the same coordinates: each one keeps its cells, on its own nodes among those of all the meshes. *)
Theorem C74_same_coordinates sd ms info : 2 <= zlen ms -> Forall2 (fun m p => stores m p.1 /\ nodes_in m sd p.2) ms info ->
  exists ms' D, PutUMeshesOnSameAggregatedCoords (Some <$> ms) = Ok (Some <$> ms') /\ zlen ms' = zlen ms /\
    forall i m p, ms @ i = Some m -> info @ i = Some p -> exists m', ms' @ i = Some m' /\ stores m' (rename (fun v => v + nodes_before info i) <$> p.1) /\ um_dim m' = um_dim m /\ um_types m' = um_types m /\
      um_coords m' = Some D /\ nodes_in m' sd (zsum (snd <$> info)) /\ forall j mj k q, ms @ j = Some mj -> point mj k q -> point m' (nodes_before info j + k) q.
Proof. exact (put_all_ok sd ms info). Qed.
Print Assumptions C74_same_coordinates.
Theorem C74_same_coordinates_few ms : zlen ms <= 1 -> PutUMeshesOnSameAggregatedCoords ms = Ok ms.
Proof. exact (put_few ms). Qed.
Print Assumptions C74_same_coordinates_few.
Theorem C74_same_coordinates_refused ms : 2 <= zlen ms -> (forall m d, Some m ∈ ms -> um_coords m = Some d -> da_wf d) ->
  None ∈ ms \/ (exists m, Some m ∈ ms /\ (um_conn m = None \/ um_connI m = None \/ um_coords m = None)) \/
    (exists m m' d d', Some m ∈ ms /\ Some m' ∈ ms /\ um_coords m = Some d /\ um_coords m' = Some d' /\ da_nc d <> da_nc d') -> PutUMeshesOnSameAggregatedCoords ms = Throw.
Proof. exact (put_throw ms). Qed.
Print Assumptions C74_same_coordinates_refused.
Example C74_same_coordinates_plane : stores tri_a [(NORM_TRI3, [0; 1; 2])] /\ nodes_in tri_a 2 3 /\ stores tri_b [(NORM_POLYGON, [2; 0; 1])] /\ nodes_in tri_b 2 4 /\
  PutUMeshesOnSameAggregatedCoords [Some tri_a; Some tri_b] = Ok [Some on_a; Some on_b] /\ PutUMeshesOnSameAggregatedCoords [Some tri_a; Some bare] = Throw.
Proof. split; [exact tri_a_stores|]. split; [exact tri_a_nodes|]. split; [exact tri_b_stores|]. split; [exact tri_b_nodes|]. split; vm_compute; reflexivity. Qed.

(** The close nodes of meshes on the same coordinates are merged, the same way in each mesh. *)
Theorem C74_merged_nodes d nb eps m0 ms css : da_alloc d = true -> da_wf d -> 1 <= da_nc d <= 4 -> da_nt d = nb -> transitive_on nb (fun i j => near (da_vals d) (da_nc d) i eps (da_vals d) j) ->
  Forall2 (fun m cells => stores m cells /\ typed m cells /\ um_coords m = Some d /\ forall n, used cells n -> n < nb) (m0 :: ms) css ->
  exists ms' r K D, MergeNodesOnUMeshesSharingSameCoords (Some <$> (m0 :: ms)) true eps = Ok (Some <$> ms') /\ merged nb d eps r K /\ zlen ms' = zlen (m0 :: ms) /\
    forall i m cells, (m0 :: ms) @ i = Some m -> css @ i = Some cells -> exists m', ms' @ i = Some m' /\ stores m' (rename (ren r) <$> cells) /\ typed m' (rename (ren r) <$> cells) /\ um_dim m' = um_dim m /\
      um_coords m' = Some D /\ has_nodes m' K /\ (forall a i q, last_pos r a i -> point m i q -> point m' a q) /\ (forall i a q q', r @ i = Some a -> point m i q -> point m' a q' -> close eps q q').
Proof. intros H1 H2 H3 H4 H5. exact (merge_nodes_on_ok d nb eps H1 H2 H3 H4 H5 m0 ms css). Qed.
Print Assumptions C74_merged_nodes.
Example C74_merged_nodes_plane : transitive_on 7 (fun i j => near (da_vals both) (da_nc both) i (1#10) (da_vals both) j) /\
  Forall2 (fun m cells => stores m cells /\ typed m cells /\ um_coords m = Some both /\ forall n, used cells n -> n < 7) [on_a; on_b] [[(NORM_TRI3, [0; 1; 2])]; [(NORM_POLYGON, [5; 3; 4])]] /\
  exists D, MergeNodesOnUMeshesSharingSameCoords [Some on_a; Some on_b] true (1#10) = Ok [Some (UM 2 (Some D) (Some [NORM_TRI3; 0; 1; 2]) (Some [0; 4]) [NORM_TRI3]); Some (UM 2 (Some D) (Some [NORM_POLYGON; 2; 1; 3]) (Some [0; 4]) [NORM_POLYGON])].
Proof. split; [exact both_near|]. split; [exact shared_example|]. eexists. vm_compute. reflexivity. Qed.
Theorem C74_merged_nodes_no_coordinates ms eps : (forall o, o ∈ ms -> exists m, o = Some m /\ um_coords m = None) -> MergeNodesOnUMeshesSharingSameCoords ms true eps = Ok ms.
Proof. exact (merge_nodes_none ms eps). Qed.
Print Assumptions C74_merged_nodes_no_coordinates.
Theorem C74_merged_nodes_refused ms same eps : ms <> [] -> None ∈ ms \/ same = false \/ (exists m d, head ms = Some (Some m) /\ um_coords m = Some d /\ da_wf d /\ ~ (da_alloc d = true /\ 1 <= da_nc d <= 4)) -> MergeNodesOnUMeshesSharingSameCoords ms same eps = Throw.
Proof. exact (merge_nodes_throw ms same eps). Qed.
Print Assumptions C74_merged_nodes_refused.
Example C74_merged_nodes_refused_ex : MergeNodesOnUMeshesSharingSameCoords [Some tri_a; Some tri_b] false (1#10) = Throw /\ MergeNodesOnUMeshesSharingSameCoords [Some bare; Some bare] true (1#10) = Ok [Some bare; Some bare].
Proof. split; vm_compute; reflexivity. Qed.

(** A mesh of points: one cell for each tuple. *)
Theorem C74_points d : da_alloc d = true -> da_wf d -> exists m, Build0DMeshFromCoords (Some d) = Ok m /\ stores m ((fun i => (NORM_POINT1, [i])) <$> seqZ 0 (da_nt d)) /\ typed m ((fun i => (NORM_POINT1, [i])) <$> seqZ 0 (da_nt d)) /\ um_dim m = 0 /\ um_coords m = Some d.
Proof. exact (build0D_ok d). Qed.
Print Assumptions C74_points.
Theorem C74_points_refused o : (forall d, o = Some d -> da_alloc d = false) -> Build0DMeshFromCoords o = Throw.
Proof. exact (build0D_throw o). Qed.
Print Assumptions C74_points_refused.
Example C74_points_both : Build0DMeshFromCoords (Some (DA true 2 [0; 0; 1; 0; 0; 1]%Q)) = Ok (UM 0 (Some (DA true 2 [0; 0; 1; 0; 0; 1]%Q)) (Some [NORM_POINT1; 0; NORM_POINT1; 1; NORM_POINT1; 2]) (Some [0; 2; 4; 6]) [NORM_POINT1]) /\ Build0DMeshFromCoords None = Throw.
Proof. split; vm_compute; reflexivity. Qed.

(** Meshes on the same coordinates aggregated type by type: the runs of cells of a same type of the meshes, moved as a whole, are sorted by type; their sizes and the meshes they come from. *)
Theorem C75_aggregated d co (ms : list (option umesh)) css : 0 <= d -> Forall2 (fun m cs => stores m cs /\ um_dim m = d /\ um_coords m = co) (omap id ms) css -> concat css <> [] -> (forall t, t ∈ kinds (concat css) -> t ∈ MEDMEM_ORDER) ->
  exists m' runs sel, AggregateSortedByTypeMeshesOnSameCoords ms true = Ok (m', (fun r => zlen r.2) <$> sel, fst <$> sel) /\ runs_of css runs /\ moved_runs runs sel /\
    stores m' (concat (snd <$> sel)) /\ typed m' (concat (snd <$> sel)) /\ um_dim m' = d /\ um_coords m' = co /\ contiguous (kinds (concat (snd <$> sel))) /\ in_order MEDMEM_ORDER (kinds (concat (snd <$> sel))).
Proof. exact (aggregate_types_ok d co ms css). Qed.
Print Assumptions C75_aggregated.
Example C75_aggregated_mixed : Forall2 (fun m cs => stores m cs /\ um_dim m = 2 /\ um_coords m = um_coords mixed) (omap id [Some sorted; None; Some mixed]) [sorted_cells; mixed_cells] /\ (forall t, t ∈ kinds (concat [sorted_cells; mixed_cells]) -> t ∈ MEDMEM_ORDER) /\
  exists m, AggregateSortedByTypeMeshesOnSameCoords [Some sorted; None; Some mixed] true = Ok (m, [3; 1; 2; 2; 1; 1], [0; 1; 1; 0; 1; 1]).
Proof. split; [exact (proj1 aggregated_example)|]. split; [exact (proj2 aggregated_example)|]. exact aggregated_value. Qed.
(** Refused: no mesh, coordinates not shared, different dimensions, a mesh without connectivity, no cell at all. *)
Theorem C75_aggregate_refused (ms : list (option umesh)) css same : Forall2 stores (omap id ms) css -> (forall m, Some m ∈ ms -> 0 <= um_dim m) ->
  (forall m, m ∉ omap id ms) \/ same = false \/ (exists m m', Some m ∈ ms /\ Some m' ∈ ms /\ um_dim m <> um_dim m') -> AggregateSortedByTypeMeshesOnSameCoords ms same = Throw.
Proof. exact (aggregate_types_throw ms css same). Qed.
Print Assumptions C75_aggregate_refused.
Theorem C75_aggregate_undefined (ms : list (option umesh)) same m : Some m ∈ ms -> um_conn m = None \/ um_connI m = None -> AggregateSortedByTypeMeshesOnSameCoords ms same = Throw.
Proof. exact (aggregate_types_undefined ms same m). Qed.
Print Assumptions C75_aggregate_undefined.
Theorem C75_aggregate_nothing d co (ms : list (option umesh)) css : 0 <= d -> Forall2 (fun m cs => stores m cs /\ um_dim m = d /\ um_coords m = co) (omap id ms) css -> concat css = [] -> AggregateSortedByTypeMeshesOnSameCoords ms true = Throw.
Proof. exact (aggregate_types_nothing d co ms css). Qed.
Print Assumptions C75_aggregate_nothing.
Example C75_aggregate_refused_ex : AggregateSortedByTypeMeshesOnSameCoords [None] true = Throw /\ AggregateSortedByTypeMeshesOnSameCoords [Some sorted; Some mixed] false = Throw /\ AggregateSortedByTypeMeshesOnSameCoords [Some (mk 2 3 []); Some (mk 2 3 [])] true = Throw /\
  AggregateSortedByTypeMeshesOnSameCoords [Some sorted; Some (mk 3 6 [])] true = Throw.
Proof. split; [|split; [|split]]; vm_compute; reflexivity. Qed.
(** The documentation gives for each chunk the rank in [ms] of its mesh: the null pointers of [ms] are not counted. *)
Theorem C75_ids_in_ms_refuted : ~ forall ms m sz ids, AggregateSortedByTypeMeshesOnSameCoords ms true = Ok (m, sz, ids) -> forall k i, ids @ k = Some i -> exists x, ms @ i = Some (Some x).
Proof. exact ids_example. Qed.
Print Assumptions C75_ids_in_ms_refuted.

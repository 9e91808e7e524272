(** Unstructured meshes: merge of meshes, meshes put on the same coordinates, meshes of points, meshes aggregated type by type.
    MEDCouplingUMesh.cxx, MEDCouplingUMesh_internal.cxx, MEDCouplingPointSet.cxx. *)
From Coq Require Import QArith.
From Verif Require Import CellModel Base DataArray StdModel RenumModel SetsModel IndexModel SkyModel PartModel TreeModel CellTable UmModel UcModel TyModel.
Local Open Scope Z_scope.

(** * Merge of meshes *)

(** MEDCouplingUMesh.cxx 4034-4084.  MEDCouplingUMesh::New gives a mesh without types. *)
Definition buildSetInstanceFromThis (m : umesh) (spaceDim : Z) : res umesh :=
  let* mdim := getMeshDimension m in
  throw_if (mdim <? 0) >>>
  let both := match um_conn m, um_connI m with Some _, Some _ => true | _, _ => false end in
  let* ret := setConnectivity (UM mdim None None None []) (Some (default [] (um_conn m))) (Some (default [0] (um_connI m))) false in
  let types := if both then um_types m else [] in
  Ok (UM mdim (Some (default (DA true spaceDim []) (um_coords m))) (um_conn ret) (um_connI ret) types).
(** MEDCouplingPointSet.cxx 876-910.  The coordinates of the first mesh are used without a check: getSpaceDimension has thrown when there are none. *)
Definition MergeNodesArray (ms : list umesh) : res (da (option Q)) :=
  match ms with
  | [] => Throw
  | m0 :: rest =>
    match um_coords m0 with
    | None => Throw
    | Some d0 =>
      let spaceDim := da_nc d0 in
      throw_if negb (da_alloc d0) >>>
      let* coo := foldM (fun coo m =>
        match um_coords m with
        | None => Throw
        | Some d => throw_if negb (da_alloc d) >>> throw_if negb (da_nc d =? spaceDim) >>> Ok (coo ++ [Some d])
        end) rest [Some d0] in
      Aggregate coo
    end
  end.
(** MEDCouplingUMesh_internal.cxx 1752-1763: the cells of a mesh copied at [p], the nodes shifted by [offset2] but the separators.
    The inner loop ends when the two pointers are equal: a cell without room for its type runs out of the array. *)
Definition copyCells (curC curCI : list Z) (n offset2 : Z) (c : list (option Z)) (p : Z) : res (list (option Z) * Z) :=
  forZ 0 n (fun j '(c, p) =>
    let* a := rd curCI j in let* b := rd curCI (j + 1) in
    let* t := rd curC a in
    let* c := wrc c p t in
    ub_if (b <? a + 1) >>>
    forZ (a + 1) b (fun q '(c, p) =>
      let* v := rd curC q in
      let* c := wrc c p (if negb (v =? -1) then v + offset2 else -1) in
      Ok (c, p + 1)) (c, p + 1)) (c, p).
(** MEDCouplingUMesh_internal.cxx 1716-1770.  Simplified: the name of the mesh is left out. *)
Definition MergeUMeshesLL (a : list umesh) : res umesh :=
  match a with
  | [] => Throw
  | m0 :: _ =>
    let* meshDim := getMeshDimension m0 in
    let* (nbOfCells, meshLgth) := foldM (fun '(nbOfCells, meshLgth) m =>
      let* d := getMeshDimension m in
      throw_if negb (meshDim =? d) >>>
      let* n := getNumberOfCells m in
      match um_conn m with None => UB | Some conn => Ok (nbOfCells + n, meshLgth + zlen conn) end) a (0, 0) in
    let* pts := MergeNodesArray a in
    let* pts := written pts in
    let* c := alloc Z meshLgth 1 in
    let* cI := alloc Z (nbOfCells + 1) 1 in
    let* cI := wrc cI 0 0 in
    let* (c, cI, _, _, _, _) := foldM (fun '(c, cI, p, pI, offset, offset2) m =>
      unchecked m (fun curC curCI =>
      let* curNbOfCell := getNumberOfCells m in
      let* cI := forZ 0 curNbOfCell (fun k r => let* v := rd curCI (1 + k) in wrc r (pI + k) (v + offset)) cI in
      let* (c, p) := copyCells curC curCI curNbOfCell offset2 c p in
      let* e := rd curCI curNbOfCell in
      let* nodes := getNumberOfNodes m in
      Ok (c, cI, p, pI + curNbOfCell, offset + e, offset2 + nodes))) a (c, cI, 0, 1, 0, 0) in
    let* c := initialised c in
    let* cI := initialised cI in
    setConnectivity (UM meshDim (Some pts) None None []) (Some c) (Some cI) true
  end.
(** MEDCouplingUMesh.cxx 8704-8738 and 8682-8689; an item that is not there is a null pointer. *)
Definition MergeUMeshes (a : list (option umesh)) : res umesh :=
  match a with
  | [] => MergeUMeshesLL []
  | _ =>
    throw_if negb (forallb (fun o : option umesh => match o with Some _ => true | None => false end) a) >>>
    let ms := omap id a in
    match omap um_coords ms with
    | [] => Throw
    | d :: _ => let* aa := foldM (fun aa m => let* b := buildSetInstanceFromThis m (da_nc d) in Ok (aa ++ [b])) ms [] in MergeUMeshesLL aa
    end
  end.

(** * Meshes put on the same coordinates *)

(** MEDCouplingUMesh.cxx 8903-8947: the meshes after the call.  Simplified: the items are distinct instances. *)
Definition PutUMeshesOnSameAggregatedCoords (meshes : list (option umesh)) : res (list (option umesh)) :=
  if (zlen meshes =? 0) || (zlen meshes =? 1) then Ok meshes
  else
    let* ms := foldM (fun ms o =>
      match o with
      | Some m => checkConnectivityFullyDefined m (fun _ _ => match um_coords m with Some _ => Ok (ms ++ [m]) | None => Throw end)
      | None => Throw
      end) meshes [] in
    let* res := Aggregate (um_coords <$> ms) in
    let* res := written res in
    match ms with
    | [] => UB
    | m0 :: rest =>
      let* offset := getNumberOfNodes m0 in
      let* (out, _) := foldM (fun '(out, offset) m =>
        let* oldNumberOfNodes := getNumberOfNodes m in
        let* m := renumberNodesWithOffsetInConn (setCoords m res) offset in
        Ok (out ++ [Some m], offset + oldNumberOfNodes)) rest ([Some (setCoords m0 res)], offset) in
      Ok out
    end.
(** MEDCouplingUMesh.cxx 8962-9013: the meshes after the call.  [sameCoords]: all of them hold the same array of coordinates (the pointers are compared).
    Simplified: the items are distinct instances. *)
Definition MergeNodesOnUMeshesSharingSameCoords (meshes : list (option umesh)) (sameCoords : bool) (eps : Q) : res (list (option umesh)) :=
  if zlen meshes =? 0 then Ok meshes
  else
    throw_if negb (forallb (fun o : option umesh => match o with Some _ => true | None => false end) meshes) >>>
    throw_if negb sameCoords >>>
    match omap id meshes with
    | [] => UB
    | m0 :: _ =>
      match um_coords m0 with
      | None => Ok meshes
      | Some coo =>
        let* (comm, commI) := findCommonTuples coo eps (-1) in
        let oldNbOfNodes := da_nt coo in
        let* (o2n, newNbOfNodes) := ConvertIndexArrayToO2N oldNbOfNodes comm commI in
        let* o2n := initialised o2n in
        if oldNbOfNodes =? newNbOfNodes then Ok meshes
        else
          let* newCoords := renumberAndReduce coo o2n newNbOfNodes in
          let* newCoords := written newCoords in
          foldM (fun out m =>
            let* m := renumberNodesInConn m o2n in Ok (out ++ [Some (setCoords m newCoords)])) (omap id meshes) []
      end
    end.

(** * Meshes of points *)

(** MEDCouplingUMesh.cxx 8614-8640.  Simplified: the name is left out. *)
Definition Build0DMeshFromCoords (o : option (da Q)) : res umesh :=
  match o with
  | None => Throw
  | Some d =>
    throw_if negb (da_alloc d) >>>
    let nbOfTuples := da_nt d in
    let* c := alloc Z (2 * nbOfTuples) 1 in
    let* cI := alloc Z (nbOfTuples + 1) 1 in
    let* cI := wrc cI 0 0 in
    let* (c, cI) := forZ 0 nbOfTuples (fun i '(c, cI) =>
      let* c := wrc c (2 * i) NORM_POINT1 in
      let* c := wrc c (2 * i + 1) i in
      let* cI := wrc cI (i + 1) (2 * (i + 1)) in
      Ok (c, cI)) (c, cI) in
    let* c := initialised c in
    let* cI := initialised cI in
    setConnectivity (UM 0 (Some d) None None []) (Some c) (Some cI) true
  end.

(** * Meshes aggregated type by type *)

(** MEDCouplingUMesh.cxx 8096-8154: the mesh, the sizes of the chunks of cells of a same type and the meshes they come from.
    [sameCoords]: the meshes hold the same array of coordinates (the pointers are compared).  m1ssmfinal is filled through an array new to old: an entry not written is a null pointer. *)
Definition AggregateSortedByTypeMeshesOnSameCoords (ms : list (option umesh)) (sameCoords : bool) : res (umesh * list Z * list Z) :=
  let* ms2 := foldM (fun ms2 o =>
    match o with Some m => checkConnectivityFullyDefined m (fun _ _ => Ok (ms2 ++ [m])) | None => Ok ms2 end) ms [] in
  match ms2 with
  | [] => Throw
  | m0 :: _ =>
    let* meshDim := getMeshDimension m0 in
    let* (m1ssm, m1ssmSingle, ret1, ret2, _) := foldM (fun '(m1ssm, m1ssmSingle, ret1, ret2, rk) m =>
      let* d := getMeshDimension m in
      throw_if negb (meshDim =? d) >>>
      throw_if negb sameCoords >>>
      let* sp := splitByType m in
      let* (m1ssmSingle, ret1, ret2) := foldM (fun '(m1ssmSingle, ret1, ret2) s =>
        let* singleCell := buildPartOfMySelf s [0] in
        let* n := getNumberOfCells s in
        Ok (m1ssmSingle ++ [singleCell], ret1 ++ [n], ret2 ++ [rk])) sp (m1ssmSingle, ret1, ret2) in
      Ok (m1ssm ++ sp, m1ssmSingle, ret1, ret2, rk + 1)) ms2 ([], [], [], [], 0) in
    let* m1ssmSingle2 := MergeUMeshesOnSameCoords m1ssmSingle true in
    let* (_, renum) := sortCellsInMEDFileFrmt m1ssmSingle2 in
    let* final := forZ 0 (zlen m1ssm) (fun i final => let* r := rd renum i in let* s := rd m1ssm i in wrc final r s) (malloc umesh (zlen m1ssm)) in
    let* final := initialised final in
    let* ret0 := MergeUMeshesOnSameCoords final true in
    let* sz := renumber (vec ret1) renum in
    let* ids := renumber (vec ret2) renum in
    let* sz := initialised (da_vals sz) in
    let* ids := initialised (da_vals ids) in
    Ok (ret0, sz, ids)
  end.

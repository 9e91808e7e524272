(** Unstructured meshes: descending connectivity (faces, edges), neighbours, boundary.
    MEDCouplingUMesh_internal.hxx, MEDCouplingUMesh_internal.cxx, MEDCouplingUMesh.cxx. *)
From Coq Require Import QArith.
From Verif Require Import CellModel Base DataArray StdModel RenumModel IndexModel SearchModel SkyModel PartModel CellTable UmModel UcModel.
Local Open Scope Z_scope.

(** A generator of the sons of a cell: their number, one of them (type and nodes), the difference of dimension. *)
Record gen := Gen { g_nb : cm -> list Z -> res Z; g_fill : cm -> Z -> list Z -> res (Z * list Z); g_delta : Z }.
(** MEDCouplingUMesh_internal.hxx 35-60: faces of the cells (edges in dimension 2, points in dimension 1). *)
Definition MinusOneSonsGenerator : gen := Gen (fun c conn => Ok (getNumberOfSons2 c conn)) fillSon2 1.
(** MEDCouplingUMesh.cxx 863-902: edges of the cells of dimension 3; the cache is computed again for each edge here. *)
Definition MinusTwoSonsGenerator : gen := Gen
  (fun c conn => if cm_type c =? NORM_POLYHED then (let* e := computeAllEdgesForPolyhedron c conn in Ok (zlen e / 2)) else getNumberOfEdgesIn3D c conn)
  (fun c i conn => if negb (cm_type c =? NORM_POLYHED) then fillSonEdges3D c i conn
                   else (let* e := computeAllEdgesForPolyhedron c conn in let* a := rd e (2 * i) in let* b := rd e (2 * i + 1) in Ok (NORM_SEG2, [a; b]))) 2.
(** MEDCouplingUMesh_internal.hxx 79-101. *)
Definition MicroEdgesGenerator2D : gen := Gen (fun c _ => getNumberOfMicroEdges c) fillMicroEdge 1.

(** MEDCouplingUMesh.cxx 361-372: setMeshDimension, on a new mesh with the coordinates [coords]. *)
Definition newMesh (dim : Z) (coords : option (da Q)) : res umesh := throw_if (dim <? -1) || (3 <? dim) >>> Ok (UM dim coords None None []).
(** MEDCouplingUMesh_internal.hxx 226-278: (mesh of the sons, descIndx, revNodalIndx, revDesc2).  The sons are written in a buffer
    as long as the cell with its type. *)
Definition buildDescendingConnectivityNoFuseGen (g : gen) (m : umesh) : res (umesh * list Z * list Z * list Z) :=
  checkConnectivityFullyDefined m (fun conn connIndex =>
  let* nbOfCells := getNumberOfCells m in
  let* nbOfNodes := getNumberOfNodes m in
  let* dim := getMeshDimension m in
  let* ret := newMesh (dim - g_delta g) (um_coords m) in
  let* ret := allocateCells ret (2 * nbOfCells) in
  let* (ret, revNodalIndx, descIndx, revDesc2) := forZ 0 nbOfCells (fun eltId '(ret, rI, descI, rD) =>
    let* pos := rd connIndex eltId in let* posP1 := rd connIndex (eltId + 1) in
    let* t := rd conn pos in
    let* cm := GetCellModel t in
    let* cell := range conn (pos + 1) posP1 in
    let* nbOfSons := g_nb g cm cell in
    let* (ret, rI, rD) := forZ 0 nbOfSons (fun i '(ret, rI, rD) =>
      let* (cmsId, tmp) := g_fill g cm i cell in
      ub_if (posP1 - pos <? zlen tmp) >>>
      let* rI := foldM (fun rI v => if 0 <=? v then (let* x := rd rI (v + 1) in wr rI (v + 1) (x + 1)) else Ok rI) tmp rI in
      let* ret := insertNextCell ret cmsId (zlen tmp) tmp in
      Ok (ret, rI, rD ++ [eltId])) (ret, rI, rD) in
    let* last := rd descI (zlen descI - 1) in
    Ok (ret, rI, descI ++ [last + nbOfSons], rD)) (ret, replicate (Z.to_nat (nbOfNodes + 1)) 0, [0], []) in
  let* revNodalIndx := forZ 1 (nbOfNodes + 1) (fun k rI => let* x := rd rI k in let* y := rd rI (k - 1) in wr rI k (x + y)) revNodalIndx in
  Ok (ret, descIndx, revNodalIndx, revDesc2)).

(** MEDCouplingUMesh_internal.cxx 1144-1175: number of a face from its id, the model of its type and the nodes of the face kept and of this one. *)
Definition nbrer : Type := Z -> option (cm * list Z * list Z) -> res Z.
Definition MEDCouplingFastNbrer : nbrer := fun id _ => Ok id.
Definition MEDCouplingOrientationSensitiveNbrer : nbrer := fun id o =>
  match o with
  | None => Ok (id + 1)
  | Some (cm, conn1, conn2) => let* b := getOrientationStatus cm conn1 conn2 in Ok (if b then id + 1 else - (id + 1))
  end.
(** MEDCouplingUMesh_internal.hxx 284-398: (mesh, desc, descIndx, revDesc, revDescIndx). *)
Definition buildDescendingConnectivityGen (g : gen) (nb : nbrer) (m : umesh) : res (umesh * list Z * list Z * list Z * list Z) :=
  let* (ret, descIndx, revNodalIndx, revDesc2) := buildDescendingConnectivityNoFuseGen g m in
  let* nbOfCellsM1 := getNumberOfCells ret in
  let* back := rd revNodalIndx (zlen revNodalIndx - 1) in
  unchecked ret (fun connM1 connIndexM1 =>
  let* revNodal := nodesUntil connM1 connIndexM1 nbOfCellsM1 (fun eltId v r =>
    if 0 <=? v then
      (let* a := rd revNodalIndx v in let* b := rd revNodalIndx (v + 1) in
       let* p := findFree r a b in wr r p eltId)
    else Ok r) (replicate (Z.to_nat back) (-1)) in
  let* (commonCells, commonCellsI) := FindCommonCellsAlgPrivate false 3 0 connM1 connIndexM1 revNodal revNodalIndx in
  let* (o2nM1, newNbOfCellsM1) := ConvertIndexArrayToO2N nbOfCellsM1 commonCells commonCellsI in
  let* o2nM1 := initialised o2nM1 in
  let* isImpacted := forZ 0 (zlen commonCellsI - 1) (fun w s =>
    let* a := rd commonCellsI w in let* b := rd commonCellsI (w + 1) in
    forZ a b (fun w2 s => let* c := rd commonCells w2 in wr s c true) s) (replicate (Z.to_nat nbOfCellsM1) false) in
  let* n2oM1 := invertArrayO2N2N2OBis (vec o2nM1) newNbOfCellsM1 in
  let* n2oM1 := initialised n2oM1 in
  let* ret2 := buildPartOfMySelf ret n2oM1 in
  let* descBack := rd descIndx (zlen descIndx - 1) in
  let* desc := forZ 0 nbOfCellsM1 (fun i desc =>
    let* imp := rd isImpacted i in
    let* id := rd o2nM1 i in
    let* x := (if negb imp then nb id None else
      let* rep := rd n2oM1 id in
      if negb (i =? rep) then
        let* a := rd connIndexM1 i in let* b := rd connIndexM1 (i + 1) in
        let* t := rd connM1 a in
        let* cms := GetCellModel t in
        let* a0 := rd connIndexM1 rep in
        let* c1 := range connM1 (a0 + 1) (a0 + (b - a)) in
        let* c2 := range connM1 (a + 1) b in
        nb id (Some (cms, c1, c2))
      else nb id None) in
    wrc desc i x) (malloc Z descBack) in
  let* desc := initialised desc in
  let* (revDesc, revDescI, _) := forZ 0 newNbOfCellsM1 (fun i '(revDesc, revDescI, p) =>
    let* old := rd n2oM1 i in
    let* imp := rd isImpacted old in
    let* last := rd revDescI (zlen revDescI - 1) in
    if negb imp then
      let* c := rd revDesc2 old in Ok (revDesc ++ [c], revDescI ++ [last + 1], p)
    else
      let* a := rd commonCellsI p in let* b := rd commonCellsI (p + 1) in
      let* revDesc := forZ a b (fun j revDesc => let* x := rd commonCells j in let* c := rd revDesc2 x in Ok (revDesc ++ [c])) revDesc in
      Ok (revDesc, revDescI ++ [last + (b - a)], p + 1)) ([], [0], 0) in
  Ok (ret2, desc, descIndx, revDesc, revDescI)).
(** MEDCouplingUMesh.cxx 783-791, 1018-1026. *)
Definition buildDescendingConnectivity (m : umesh) := buildDescendingConnectivityGen MinusOneSonsGenerator MEDCouplingFastNbrer m.
Definition buildDescendingConnectivity2 (m : umesh) := buildDescendingConnectivityGen MinusOneSonsGenerator MEDCouplingOrientationSensitiveNbrer m.
(** MEDCouplingUMesh.cxx 911-924. *)
Definition explode3DMeshTo1D (m : umesh) : res (umesh * list Z * list Z * list Z * list Z) :=
  checkFullyDefined m (fun _ _ _ =>
  let* d := getMeshDimension m in
  throw_if negb (d =? 3) >>> buildDescendingConnectivityGen MinusTwoSonsGenerator MEDCouplingFastNbrer m).
(** MEDCouplingUMesh.cxx 946-966: the same generator in both cases. *)
Definition explodeMeshIntoMicroEdges (m : umesh) : res (umesh * list Z * list Z * list Z * list Z) :=
  checkFullyDefined m (fun _ _ _ =>
  let* d := getMeshDimension m in
  if d =? 2 then buildDescendingConnectivityGen MicroEdgesGenerator2D MEDCouplingFastNbrer m
  else if d =? 3 then buildDescendingConnectivityGen MicroEdgesGenerator2D MEDCouplingFastNbrer m
  else Throw).

(** * Neighbours *)

(** MEDCouplingUMesh.cxx 1134-1180: (neighbors, neighborsIndx). *)
Definition ComputeNeighborsOfCellsAdv (desc descI revDesc revDescI : list Z) : res (list Z * list Z) :=
  let nbCells := zlen descI - 1 in
  forZ 0 nbCells (fun i '(out0, out1) =>
    let* a := rd descI i in let* b := rd descI (i + 1) in
    ub_if (b <? a) >>>
    let* out0 := forZ a b (fun w1 out0 =>
      let* f := rd desc w1 in
      let* lo := rd revDescI f in let* hi := rd revDescI (f + 1) in
      let* x := range revDesc lo hi in
      Ok (out0 ++ List.filter (fun v => negb (v =? i)) (set_of x))) out0 in
    Ok (out0, out1 ++ [zlen out0])) ([], [0]).
(** MEDCouplingUMesh.cxx 1044-1054. *)
Definition computeNeighborsOfCells (m : umesh) : res (list Z * list Z) :=
  let* (_, desc, descI, revDesc, revDescI) := buildDescendingConnectivity m in
  ComputeNeighborsOfCellsAdv desc descI revDesc revDescI.
(** MEDCouplingUMesh.cxx 1073-1114: identifiers stored by node turned to identifiers stored by cell. *)
Definition computeCellNeighborhoodFromNodesOne (m : umesh) (nodeNeigh nodeNeighI : da Z) : res (list Z * list Z) :=
  let* _ := checkConsistencyLight m in
  checkAllocated nodeNeigh (checkAllocated nodeNeighI (
  throw_if negb (da_nc nodeNeigh =? 1) >>> throw_if negb (da_nc nodeNeighI =? 1) >>>
  let* nbNodes := getNumberOfNodes m in
  throw_if negb (da_nt nodeNeighI =? 1 + nbNodes) >>>
  let* nbCells := getNumberOfCells m in
  unchecked m (fun c ci =>
  forZ 0 nbCells (fun i '(cellNeigh, cellNeighI) =>
    let* a := rd ci i in let* b := rd ci (i + 1) in
    ub_if (b <? a + 1) >>>
    let* s := forZ (a + 1) b (fun j s =>
      let* v := rd c j in
      if 0 <=? v then
        (let* lo := rd (da_vals nodeNeighI) v in let* hi := rd (da_vals nodeNeighI) (v + 1) in
         let* x := range (da_vals nodeNeigh) lo hi in Ok (s ++ x))
      else Ok s) [] in
    let cellNeigh := cellNeigh ++ List.filter (fun v => negb (v =? i)) (set_of s) in
    Ok (cellNeigh, cellNeighI ++ [zlen cellNeigh])) ([], [0])))).

(** * Boundary *)

(** MEDCouplingUMesh.cxx 2943-2973: the address of the first element of a vector without elements is undefined. *)
Definition buildBoundaryMesh (m : umesh) : res umesh :=
  let* (meshDM1, _, _, _, revDescI) := buildDescendingConnectivity m in
  let* nbOfCells := getNumberOfCells meshDM1 in
  let* boundaryCells := forZ 0 nbOfCells (fun i s =>
    let* a := rd revDescI i in let* b := rd revDescI (i + 1) in
    Ok (if b - a =? 1 then s ++ [i] else s)) [] in
  ub_if (zlen boundaryCells =? 0) >>> buildPartOfMySelf meshDM1 boundaryCells.
(** MEDCouplingUMesh.cxx 3097-3115. *)
Definition computeSkin (m : umesh) : res umesh :=
  let* (meshDM1, _, _, _, revDescI) := buildDescendingConnectivity m in
  let* sh := deltaShiftIndex (vec revDescI) in
  let* sh := initialised sh in
  let* part := findIdsEqual 1 (vec sh) in
  buildPartOfMySelf meshDM1 part.
(** MEDCouplingUMesh.cxx 3132-3137. *)
Definition findBoundaryNodes (m : umesh) : res (list Z) := let* skin := computeSkin m in computeFetchedNodeIds skin.
(** MEDCouplingUMesh.cxx 2981-3024. *)
Definition findCellIdsOnBoundary (m : umesh) : res (list Z) :=
  checkFullyDefined m (fun _ _ _ =>
  let* nbOfCells := getNumberOfCells m in
  if nbOfCells =? 0 then Ok [] else
  let* (_, _, _, revDesc, revDescI) := buildDescendingConnectivity m in
  let* sh := deltaShiftIndex (vec revDescI) in
  let* sh := initialised sh in
  let* faceIds := findIdsEqual 1 (vec sh) in
  let* ret1 := foldM (fun s pt => let* a := rd revDescI pt in let* c := rd revDesc a in wr s c true) faceIds (replicate (Z.to_nat nbOfCells) false) in
  forZ 0 nbOfCells (fun i s => let* b := rd ret1 i in Ok (if b : bool then s ++ [i] else s)) []).

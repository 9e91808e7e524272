(** Unstructured meshes: MEDCouplingUMesh.cxx, MEDCouplingUMesh.txx, MEDCouplingUMesh_internal.cxx and MEDCouplingPointSet.cxx:
    building, checks, nodes in use, numbering of nodes and cells, merge of nodes, selection of cells. *)
From stdpp Require Import gmap.
From Coq Require Import QArith.
From Verif Require Import Base DataArray SlicesModel RenumModel SetsModel IndexModel SkyModel PartModel TreeModel CellTable.
Local Open Scope Z_scope.

(** MEDCouplingUMesh.hxx 460-470 and MEDCouplingPointSet.hxx: mesh dimension, coordinates, nodal connectivity and its index, types.
    Simplifications: the connectivity arrays, when set, are allocated with one component without information on it;
    the std::set of types is an ascending list; coordinates are rationals, not doubles; names, units and times are left out. *)
Record umesh := UM { um_dim : Z; um_coords : option (da Q); um_conn : option (list Z); um_connI : option (list Z); um_types : list Z }.
(** std::set::insert. *)
Fixpoint insertType (t : Z) (l : list Z) : list Z :=
  match l with [] => [t] | x :: r => if t <? x then t :: l else if t =? x then l else x :: insertType t r end.

(** MEDCouplingUMesh.cxx 4183-4193. *)
Definition getNumberOfCells (m : umesh) : res Z :=
  match um_connI m with Some i => Ok (zlen i - 1) | None => if um_dim m =? -1 then Ok 1 else Throw end.
(** MEDCouplingPointSet.cxx 55-61. *)
Definition getNumberOfNodes (m : umesh) : res Z := match um_coords m with Some d => Ok (da_nt d) | None => Throw end.
(** MEDCouplingUMesh_internal.cxx 59-66; the continuation receives the three arrays. *)
Definition checkFullyDefined {A} (m : umesh) (k : da Q -> list Z -> list Z -> res A) : res A :=
  match um_connI m, um_conn m, um_coords m with Some i, Some c, Some d => k d c i | _, _, _ => Throw end.
(** MEDCouplingUMesh_internal.cxx 72-78. *)
Definition checkConnectivityFullyDefined {A} (m : umesh) (k : list Z -> list Z -> res A) : res A :=
  match um_connI m, um_conn m with Some i, Some c => k c i | _, _ => Throw end.
(** Use of the arrays without a check: a null pointer is undefined. *)
Definition unchecked {A} (m : umesh) (k : list Z -> list Z -> res A) : res A :=
  match um_connI m, um_conn m with Some i, Some c => k c i | _, _ => UB end.

(** The double loop over the nodes of the cells, written in each method:
    [for(i<nbOfCells) for(j=connI[i]+1; j != connI[i+1]; j++) body]; a pointer that starts beyond its end runs out of the array. *)
Definition nodesUntil {St} (conn connI : list Z) (nbOfCells : Z) (body : Z -> Z -> St -> res St) (s : St) : res St :=
  forZ 0 nbOfCells (fun i s =>
    let* a := rd connI i in let* b := rd connI (i + 1) in
    ub_if (b <? a + 1) >>> forZ (a + 1) b (fun j s => let* v := rd conn j in body i v s) s) s.
(** The same loop with [j < connI[i+1]]. *)
Definition nodesBelow {St} (conn connI : list Z) (nbOfCells : Z) (body : Z -> Z -> St -> res St) (s : St) : res St :=
  forZ 0 nbOfCells (fun i s =>
    let* a := rd connI i in let* b := rd connI (i + 1) in
    forZ (a + 1) b (fun j s => let* v := rd conn j in body i v s) s) s.
(** The loop that rewrites the nodes in place, but the separators of the faces of the polyhedra. *)
Definition rewriteNodes (f : Z -> res Z) (conn connI : list Z) (nbOfCells : Z) : res (list Z) :=
  forZ 0 nbOfCells (fun i c =>
    let* a := rd connI i in let* b := rd connI (i + 1) in
    ub_if (b <? a + 1) >>> forZ (a + 1) b (fun j c =>
      let* node := rd c j in
      if 0 <=? node then (let* w := f node in wr c j w) else Ok c) c) conn.

(** * Building *)

(** MEDCouplingUMesh_internal.cxx 2333-2348. *)
Definition ComputeAllTypesInternal (types : list Z) (conn connI : option (list Z)) : res (list Z) :=
  match conn, connI with
  | Some conn, Some connI => forZ 0 (zlen connI - 1) (fun i types => let* a := rd connI i in let* t := rd conn a in Ok (insertType t types)) []
  | _, _ => Ok types
  end.
(** MEDCouplingUMesh.cxx 4133-4140. *)
Definition setConnectivity (m : umesh) (conn connI : option (list Z)) (isComputingTypes : bool) : res umesh :=
  let* types := if isComputingTypes then ComputeAllTypesInternal (um_types m) conn connI else Ok (um_types m) in
  Ok (UM (um_dim m) (um_coords m) conn connI types).
(** MEDCouplingUMesh.cxx 385-404. *)
Definition allocateCells (m : umesh) (nbOfCells : Z) : res umesh :=
  throw_if (nbOfCells <? 0) >>> Ok (UM (um_dim m) (um_coords m) (Some []) (Some [0]) []).
(** MEDCouplingMemArray.txx MemArray::writeOnPlace: the value and the [size] values of the other array are written from [id] on,
    the array grows when needed.  A start beyond the end leaves a hole, counted as undefined here. *)
Definition writeOnPlace (l : list Z) (id v : Z) (other : list Z) (size : Z) : res (list Z) :=
  ub_if (id <? 0) || (zlen l <? id) || (size <? 0) || (zlen other <? size) >>>
  Ok (take (Z.to_nat id) l ++ v :: take (Z.to_nat size) other ++ drop (Z.to_nat (id + size + 1)) l).
(** MEDCouplingUMesh.cxx 419-456; back() throws on an empty array. *)
Definition insertNextCell (m : umesh) (type size : Z) (nodalConnOfCell : list Z) : res umesh :=
  let* cm := GetCellModel type in
  match um_connI m with
  | None => Throw
  | Some connI =>
    if cm_dim cm =? um_dim m then
      throw_if negb (cm_dyn cm) && negb (size =? cm_nbpts cm) >>>
      throw_if (zlen connI =? 0) >>>
      let* idx := rd connI (zlen connI - 1) in
      let val := idx + size + 1 in
      match um_conn m with
      | None => UB
      | Some conn =>
        let* conn := writeOnPlace conn idx type nodalConnOfCell size in
        Ok (UM (um_dim m) (um_coords m) (Some conn) (Some (connI ++ [val])) (insertType type (um_types m)))
      end
    else Throw
  end.

(** * Checks *)

(** MEDCouplingUMesh.cxx 192-236. *)
Definition checkConsistencyLight (m : umesh) : res unit :=
  throw_if (um_dim m <? -1) >>>
  throw_if negb (um_dim m =? -1) && negb (bool_decide (is_Some (um_coords m))) >>>
  let* _ := foldM (fun _ t => let* cm := GetCellModel t in throw_if negb (cm_dim cm =? um_dim m) >>> Ok tt) (um_types m) tt in
  throw_if negb (bool_decide (is_Some (um_conn m))) && negb (um_dim m =? -1) >>>
  throw_if negb (bool_decide (is_Some (um_connI m))) && negb (um_dim m =? -1) >>>
  Ok tt.
(** MEDCouplingUMesh.cxx 258-335. *)
Definition checkConsistency (m : umesh) : res unit :=
  let* _ := checkConsistencyLight m in
  if um_dim m =? -1 then Ok tt else
  let* nbOfNodes := getNumberOfNodes m in
  let* nbOfCells := getNumberOfCells m in
  unchecked m (fun ptr ptrI =>
  forZ 0 nbOfCells (fun i _ =>
    let* a := rd ptrI i in
    let* t := rd ptr a in
    let* cm := GetCellModel t in
    throw_if negb (cm_dim cm =? um_dim m) >>>
    let* b := rd ptrI (i + 1) in
    let nbOfNodesInCell := b - a - 1 in
    throw_if negb (cm_dyn cm) && negb (nbOfNodesInCell =? cm_nbpts cm) >>>
    throw_if cm_quad cm && cm_dyn cm && (um_dim m =? 2) && (negb (Z.rem nbOfNodesInCell 2 =? 0) || (nbOfNodesInCell <? 4)) >>>
    ub_if (b <? a + 1) >>>
    forZ (a + 1) b (fun w _ =>
      let* nodeId := rd ptr w in
      if 0 <=? nodeId then throw_if (nbOfNodes <=? nodeId) >>> Ok tt
      else if nodeId <? -1 then Throw
      else throw_if negb (t =? NORM_POLYHED) >>> Ok tt) tt) tt).
(** MEDCouplingUMesh.cxx 337-351: the std::set of the nodes has as many elements as the cell has nodes. *)
Definition checkGeomConsistency (m : umesh) : res unit :=
  let* _ := checkConsistency m in
  let* nbOfCells := getNumberOfCells m in
  unchecked m (fun ptr ptrI =>
  forZ 0 nbOfCells (fun icell _ =>
    let* a := rd ptrI icell in let* b := rd ptrI (icell + 1) in
    ub_if (b <? a + 1) >>>
    let* nodes := forZ (a + 1) b (fun j l => let* v := rd ptr j in Ok (l ++ [v])) [] in
    throw_if negb (zlen (remove_dups nodes) =? b - a - 1) >>> Ok tt) tt).

(** * Nodes *)

(** MEDCouplingUMesh.cxx 1821-1842. *)
Definition computeNodeIdsAlg (m : umesh) (nodeIdsInUse : list bool) : res (list bool) :=
  let nbOfNodes := zlen nodeIdsInUse in
  let* nbOfCells := getNumberOfCells m in
  unchecked m (fun conn connI =>
  nodesBelow conn connI nbOfCells (fun _ v use =>
    if 0 <=? v then (if v <? nbOfNodes then wr use v true else Throw) else Ok use) nodeIdsInUse).
(** MEDCouplingMemArray.txx 9574-9581. *)
Fixpoint switchedOn (k : Z) (v : list bool) : list Z :=
  match v with [] => [] | b :: r => if b then k :: switchedOn (k + 1) r else switchedOn (k + 1) r end.
(** MEDCouplingUMesh.cxx 1806-1814: std::max_element over the whole connectivity, types and separators included. *)
Definition computeFetchedNodeIds (m : umesh) : res (list Z) :=
  checkConnectivityFullyDefined m (fun conn connI =>
  let maxElt := match conn with [] => 0 | x :: r => Z.abs (foldr Z.max x r) + 1 end in
  let* use := computeNodeIdsAlg m (replicate (Z.to_nat maxElt) false) in
  Ok (switchedOn 0 use)).
(** MEDCouplingPointSet.cxx 1529-1536. *)
Definition areAllNodesFetched (m : umesh) : res bool :=
  checkFullyDefined m (fun _ _ _ =>
  let* nbNodes := getNumberOfNodes m in
  let* use := computeNodeIdsAlg m (replicate (Z.to_nat nbNodes) false) in
  Ok (forallb id use)).
(** MEDCouplingUMesh.cxx 1846-1857: MEDCouplingAccVisit, over the array. *)
Fixpoint accVisit (k : Z) (l : list Z) : list Z :=
  match l with [] => [] | v :: r => if negb (v =? -1) then k :: accVisit (k + 1) r else -1 :: accVisit k r end.
(** MEDCouplingUMesh.cxx 1878-1907: (traducer, nbrOfNodesInUse). *)
Definition getNodeIdsInUse (m : umesh) : res (list Z * Z) :=
  let* nbOfNodes := getNumberOfNodes m in
  let* nbOfCells := getNumberOfCells m in
  unchecked m (fun conn connI =>
  let* traducer := nodesBelow conn connI nbOfCells (fun _ v tr =>
    if 0 <=? v then (if v <? nbOfNodes then wr tr v 1 else Throw) else Ok tr) (replicate (Z.to_nat nbOfNodes) (-1)) in
  Ok (accVisit 0 traducer, zlen (List.filter (fun v => v =? 1) traducer))).
(** MEDCouplingUMesh.cxx 1918-1935. *)
Definition computeNbOfNodesPerCell (m : umesh) : res (list (option Z)) :=
  checkConnectivityFullyDefined m (fun conn connI =>
  let* nbOfCells := getNumberOfCells m in
  let* ret := alloc Z nbOfCells 1 in
  forZ 0 nbOfCells (fun i ret =>
    let* a := rd connI i in let* b := rd connI (i + 1) in
    let* t := rd conn a in
    if negb (t =? NORM_POLYHED) then wrc ret i (b - a - 1)
    else
      ub_if (b <? a + 1) >>>
      let* n := forZ (a + 1) b (fun j n => let* v := rd conn j in Ok (if v =? -1 then n + 1 else n)) 0 in
      wrc ret i (b - a - 1 - n)) ret).
(** MEDCouplingUMesh.cxx 1946-1971. *)
Definition computeEffectiveNbOfNodesPerCell (m : umesh) : res (list (option Z)) :=
  checkConnectivityFullyDefined m (fun conn connI =>
  let* nbOfCells := getNumberOfCells m in
  let* ret := alloc Z nbOfCells 1 in
  forZ 0 nbOfCells (fun i ret =>
    let* a := rd connI i in let* b := rd connI (i + 1) in
    ub_if (b <? a + 1) >>>
    let* nodes := forZ (a + 1) b (fun j l => let* v := rd conn j in Ok (l ++ [v])) [] in
    let s := remove_dups nodes in
    let* t := rd conn a in
    wrc ret i (zlen (if negb (t =? NORM_POLYHED) then s else List.filter (fun v => negb (v =? -1)) s))) ret).

(** MEDCouplingUMesh.cxx 3510-3528 and 3595-3613. *)
Definition renumberNodesWithOffsetInConn (m : umesh) (offset : Z) : res umesh :=
  checkConnectivityFullyDefined m (fun conn connI =>
  let* nbOfCells := getNumberOfCells m in
  let* conn := rewriteNodes (fun node => Ok (node + offset)) conn connI nbOfCells in
  Ok (UM (um_dim m) (um_coords m) (Some conn) (Some connI) (um_types m))).
(** MEDCouplingUMesh.cxx 3567-3585. *)
Definition renumberNodesInConn (m : umesh) (newNodeNumbersO2N : list Z) : res umesh :=
  checkConnectivityFullyDefined m (fun conn connI =>
  let* nbOfCells := getNumberOfCells m in
  let* conn := rewriteNodes (fun node => rd newNodeNumbersO2N node) conn connI nbOfCells in
  Ok (UM (um_dim m) (um_coords m) (Some conn) (Some connI) (um_types m))).
(** MEDCouplingUMesh.txx 28-57. *)
Definition renumberNodesInConnT (m : umesh) (newNodeNumbersO2N : gmap Z Z) : res umesh :=
  checkConnectivityFullyDefined m (fun conn connI =>
  let* nbOfCells := getNumberOfCells m in
  let* conn := rewriteNodes (fun node => match newNodeNumbersO2N !! node with Some w => Ok w | None => Throw end) conn connI nbOfCells in
  Ok (UM (um_dim m) (um_coords m) (Some conn) (Some connI) (um_types m))).
(** MEDCouplingUMesh.cxx 3634-3662. *)
Definition duplicateNodesInConn (m : umesh) (nodeIds : list Z) (offset : Z) : res umesh :=
  checkConnectivityFullyDefined m (fun conn connI =>
  let* (mp, _) := foldM (fun (s : gmap Z Z * Z) work => Ok (<[work := s.2]> s.1, s.2 + 1)) nodeIds (∅, offset) in
  let* nbOfCells := getNumberOfCells m in
  let* conn := rewriteNodes (fun node => Ok (default node (mp !! node))) conn connI nbOfCells in
  Ok (UM (um_dim m) (um_coords m) (Some conn) (Some connI) (um_types m))).

(** Coordinates kept by the mesh: all of them have been written.  A coordinate left unset would be a value out of nowhere: undefined here. *)
Definition written (d : da (option Q)) : res (da Q) := let* v := initialised (da_vals d) in Ok (DA (da_alloc d) (da_nc d) v).
(** MEDCouplingPointSet.cxx setCoords. *)
Definition setCoords (m : umesh) (d : da Q) : umesh := UM (um_dim m) (Some d) (um_conn m) (um_connI m) (um_types m).
(** MEDCouplingPointSet.cxx 434-443. *)
Definition renumberNodes (m : umesh) (newNodeNumbers : list Z) (newNbOfNodes : Z) : res umesh :=
  match um_coords m with
  | None => Throw
  | Some coords =>
    let* newCoords := renumberAndReduce coords newNodeNumbers newNbOfNodes in
    let* m := renumberNodesInConn m newNodeNumbers in
    let* newCoords := written newCoords in
    Ok (setCoords m newCoords)
  end.
(** MEDCouplingPointSet.cxx 464-498.  A new node without any origin is divided by zero (not a number in the code): undefined here. *)
Definition renumberNodesCenter (m : umesh) (newNodeNumbers : list Z) (newNbOfNodes : Z) : res umesh :=
  match um_coords m with
  | None => Throw
  | Some coords =>
    throw_if (newNbOfNodes <? 0) >>>
    let dv := replicate (Z.to_nat newNbOfNodes) 0 in
    let spaceDim := da_nc coords in
    let* cells := alloc Q newNbOfNodes spaceDim in
    let pt := (fun _ => 0%Q) <$> cells in
    let* (pt, dv) := forZ 0 (da_nt coords) (fun i '(pt, dv) =>
      let* w := rd newNodeNumbers i in
      let* pt := forZ 0 spaceDim (fun k pt =>
        let* x := rd (da_vals coords) (i * spaceDim + k) in
        let* y := rd pt (w * spaceDim + k) in
        wr pt (w * spaceDim + k) (x + y)%Q) pt in
      let* n := rd dv w in
      let* dv := wr dv w (n + 1) in
      Ok (pt, dv)) (pt, dv) in
    let* pt := forZ 0 newNbOfNodes (fun i pt =>
      let* n := rd dv i in
      ub_if (n =? 0) >>>
      forZ 0 spaceDim (fun k pt =>
        let* y := rd pt (i * spaceDim + k) in
        wr pt (i * spaceDim + k) (y * (1 / inject_Z n))%Q) pt) pt in
    renumberNodesInConn (setCoords m (DA true spaceDim pt)) newNodeNumbers
  end.
(** MEDCouplingPointSet.cxx 1773-1780: (mesh, traducer). *)
Definition zipCoordsTraducer (m : umesh) : res (umesh * list Z) :=
  let* (traducer, newNbOfNodes) := getNodeIdsInUse m in
  let* m := renumberNodes m traducer newNbOfNodes in
  Ok (m, traducer).
(** MEDCouplingPointSet.cxx 280-293, 321-330 and 403-416: (old to new, new number of nodes). *)
Definition buildPermArrayForMergeNode (m : umesh) (precision : Q) (limitNodeId : Z) : res (list Z * Z) :=
  match um_coords m with
  | None => Throw
  | Some coords =>
    let* (comm, commI) := findCommonTuples coords precision limitNodeId in
    let* oldNbOfNodes := getNumberOfNodes m in
    let* (o2n, newNb) := ConvertIndexArrayToO2N oldNbOfNodes comm commI in
    let* o2n := initialised o2n in
    Ok (o2n, newNb)
  end.
(** MEDCouplingPointSet.cxx 1800-1807: (mesh, old to new, areNodesMerged, new number of nodes). *)
Definition mergeNodes (m : umesh) (precision : Q) : res (umesh * list Z * bool * Z) :=
  let* (o2n, newNb) := buildPermArrayForMergeNode m precision (-1) in
  let* oldNb := getNumberOfNodes m in
  let areNodesMerged := negb (oldNb =? newNb) in
  let* m := if areNodesMerged then renumberNodes m o2n newNb else Ok m in
  Ok (m, o2n, areNodesMerged, newNb).
(** MEDCouplingPointSet.cxx 1828-1835. *)
Definition mergeNodesCenter (m : umesh) (precision : Q) : res (umesh * list Z * bool * Z) :=
  let* (o2n, newNb) := buildPermArrayForMergeNode m precision (-1) in
  let* oldNb := getNumberOfNodes m in
  let areNodesMerged := negb (oldNb =? newNb) in
  let* m := if areNodesMerged then renumberNodesCenter m o2n newNb else Ok m in
  Ok (m, o2n, areNodesMerged, newNb).
(** MEDCouplingPointSet.cxx 733-741. *)
Definition duplicateNodesInCoords (m : umesh) (nodeIds : list Z) : res umesh :=
  match um_coords m with
  | None => Throw
  | Some coords =>
    let* newCoords := mySelectByTupleIdSafe coords nodeIds in
    let* newCoords := written newCoords in
    let* newCoords2 := Aggregate [Some coords; Some newCoords] in
    let* newCoords2 := written newCoords2 in
    Ok (setCoords m newCoords2)
  end.
(** MEDCouplingUMesh.cxx 3492-3497. *)
Definition duplicateNodes (m : umesh) (nodeIds : list Z) : res umesh :=
  let* nbOfNodes := getNumberOfNodes m in
  let* m := duplicateNodesInCoords m nodeIds in
  duplicateNodesInConn m nodeIds nbOfNodes.

(** * Cells of the nodes *)

(** std::find_if with equality to -1 on [a,b): position of the first one, [b] when none. *)
Definition findFree (l : list Z) (a b : Z) : res Z :=
  ub_if (b <? a) >>>
  let* (p, _) := forZ a b (fun j '(p, found) => if (found : bool) then Ok (p, found) else let* v := rd l j in Ok (if v =? -1 then (j, true) else (p, false))) (b, false) in
  Ok p.
(** MEDCouplingUMesh.cxx 694-738: (revNodal, revNodalIndx). *)
Definition getReverseNodalConnectivity (m : umesh) : res (list Z * list Z) :=
  checkFullyDefined m (fun coords conn connI =>
  let nbOfNodes := da_nt coords in
  let* nbOfCells := getNumberOfCells m in
  let* (nb, rI) := nodesUntil conn connI nbOfCells (fun _ v '(nb, rI) =>
    if 0 <=? v then (let* x := rd rI (v + 1) in let* rI := wr rI (v + 1) (x + 1) in Ok (nb + 1, rI)) else Ok (nb, rI))
    (0, replicate (Z.to_nat (nbOfNodes + 1)) 0) in
  let* rI := forZ 1 (nbOfNodes + 1) (fun k rI => let* x := rd rI k in let* y := rd rI (k - 1) in wr rI k (x + y)) rI in
  let* r := nodesUntil conn connI nbOfCells (fun eltId v r =>
    if 0 <=? v then
      (let* a := rd rI v in let* b := rd rI (v + 1) in
       let* p := findFree r a b in wr r p eltId)
    else Ok r) (replicate (Z.to_nat nb) (-1)) in
  Ok (r, rI)).

(** * Selection and numbering of cells *)

(** MEDCouplingUMesh_internal.cxx 1048-1091. *)
Definition buildPartOfMySelfKeepCoords (m : umesh) (ids : list Z) : res umesh :=
  checkConnectivityFullyDefined m (fun conn connI =>
  let* ncell := getNumberOfCells m in
  let nbOfElemsRet := zlen ids in
  let* connIndexRet := wrc (malloc Z (nbOfElemsRet + 1)) 0 0 in
  let* connIndexRet := forZ 0 nbOfElemsRet (fun k r =>
    let* w := rd ids k in
    if (0 <=? w) && (w <? ncell) then
      (let* p := rdc r k in let* b := rd connI (w + 1) in let* a := rd connI w in wrc r (k + 1) (p + b - a))
    else Throw) connIndexRet in
  let* total := rdc connIndexRet nbOfElemsRet in
  ub_if (total <? 0) >>>
  let* (types, connRet, pos) := forZ 0 nbOfElemsRet (fun k '(types, connRet, pos) =>
    let* w := rd ids k in
    let* a := rd connI w in let* b := rd connI (w + 1) in
    let* t := rd conn a in
    let* connRet := copyc conn a b connRet pos in
    Ok (insertType t types, connRet, pos + (b - a))) ([], malloc Z total, 0) in
  let* connRet := initialised connRet in
  let* connIndexRet := initialised connIndexRet in
  Ok (UM (um_dim m) (um_coords m) (Some connRet) (Some connIndexRet) types)).
(** MEDCouplingUMesh_internal.cxx 1097-1146. *)
Definition buildPartOfMySelfKeepCoordsSlice (m : umesh) (start stop step : Z) : res umesh :=
  checkFullyDefined m (fun _ conn connI =>
  let* ncell := getNumberOfCells m in
  let* newNbOfCells := GetNumberOfItemGivenBESRelative start stop step in
  let* newConnI := alloc Z (newNbOfCells + 1) 1 in
  let* newConnI := wrc newConnI 0 0 in
  let* (newConnI, _) := forZ 0 newNbOfCells (fun i '(r, work) =>
    if (0 <=? work) && (work <? ncell) then
      (let* p := rdc r i in let* b := rd connI (work + 1) in let* a := rd connI work in
       let* r := wrc r (i + 1) (p + b - a) in Ok (r, work + step))
    else Throw) (newConnI, start) in
  let* total := rdc newConnI newNbOfCells in
  let* newConn := alloc Z total 1 in
  let* (types, newConn, _, _) := forZ 0 newNbOfCells (fun i '(types, newConn, pos, work) =>
    let* a := rd connI work in let* b := rd connI (work + 1) in
    let* t := rd conn a in
    let* newConn := copyc conn a b newConn pos in
    Ok (insertType t types, newConn, pos + (b - a), work + step)) ([], newConn, 0, start) in
  let* newConn := initialised newConn in
  let* newConnI := initialised newConnI in
  Ok (UM (um_dim m) (um_coords m) (Some newConn) (Some newConnI) types)).
(** MEDCouplingUMesh.cxx 3678-3718. *)
Definition renumberCells (m : umesh) (old2New : list Z) (check : bool) : res umesh :=
  checkConnectivityFullyDefined m (fun conn connI =>
  let* nbCells := getNumberOfCells m in
  ub_if (zlen old2New <? nbCells) >>>
  let old2New := take (Z.to_nat nbCells) old2New in
  let* array := if check then (let* l := CheckAndPreparePermutationRaw old2New in initialised l) else Ok old2New in
  let* n2o := invertArrayO2N2N2O (DA true 1 array) nbCells in
  let* newConn := alloc Z (zlen conn) 1 in
  let* newConnI := alloc Z (zlen connI) 1 in
  let* newConnI := wrc newConnI 0 0 in
  let* (newConn, newConnI, loc) := forZ 0 nbCells (fun i '(newC, newCI, loc) =>
    let* pos := rdc n2o i in
    let* b := rd connI (pos + 1) in let* a := rd connI pos in
    let nbOfElts := b - a in
    let* newC := copyc conn a b newC loc in
    let loc := loc + nbOfElts in
    let* newCI := wrc newCI (i + 1) loc in
    Ok (newC, newCI, loc)) (newConn, newConnI, 0) in
  let* newConn := initialised newConn in
  let* newConnI := initialised newConnI in
  setConnectivity m (Some newConn) (Some newConnI) true).
(** MEDCouplingUMesh_internal.cxx 606-645. *)
Definition fillCellIdsToKeepFromNodeIds (m : umesh) (nodeIds : list Z) (fullyIn : bool) : res (list Z) :=
  checkConnectivityFullyDefined m (fun conn connI =>
  match conn with
  | [] => Ok []
  | x :: rest =>
    let sz := Z.max (foldr Z.max x rest) 0 + 1 in
    let* fastFinder := foldM (fun ff work => if (0 <=? work) && (work <? sz) then wr ff work true else Ok ff) nodeIds (replicate (Z.to_nat sz) false) in
    let* nbOfCells := getNumberOfCells m in
    forZ 0 nbOfCells (fun i kept =>
      let* a := rd connI i in let* b := rd connI (i + 1) in
      ub_if (b <? a + 1) >>>
      let* (ref, nbOfHit) := forZ (a + 1) b (fun j '(ref, hit) =>
        let* v := rd conn j in
        if 0 <=? v then (let* f := rd fastFinder v in Ok (ref + 1, if (f : bool) then hit + 1 else hit)) else Ok (ref, hit)) (0, 0) in
      Ok (if ((ref =? nbOfHit) && fullyIn) || (negb (nbOfHit =? 0) && negb fullyIn) then kept ++ [i] else kept)) []
  end).

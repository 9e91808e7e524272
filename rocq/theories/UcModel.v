(** Unstructured meshes: equality of cells, search of the equal cells, removal of the duplicates, meshes on the same coordinates.
    MEDCouplingUMesh.cxx, MEDCouplingUMesh_internal.cxx, MEDCouplingPointSet.cxx. *)
From Coq Require Import QArith.
From Verif Require Import Base DataArray StdModel RenumModel IndexModel SkyModel PartModel CellTable UmModel.
Local Open Scope Z_scope.

(** A range of pointers [p+a, p+b) given to an algorithm of the standard library; simplification: the whole range is read,
    also when the algorithm stops before its end. *)
Definition range (l : list Z) (a b : Z) : res (list Z) :=
  if (0 <=? a) && (a <=? b) && (b <=? zlen l) then Ok (take (Z.to_nat (b - a)) (drop (Z.to_nat a) l)) else UB.
(** [a && b]. *)
Definition andR (a b : res bool) : res bool := let* x := a in if x then b else Ok false.
(** [conn[p] == conn[q]]. *)
Definition sameAt (conn : list Z) (p q : Z) : res bool := let* x := rd conn p in let* y := rd conn q in Ok (x =? y).

(** * Equality of two cells *)

(** The bounds of the two cells in the connectivity; the cells differ when their lengths do: the test that begins each policy. *)
Definition sameSize (connI : list Z) (cell1 cell2 : Z) (k : Z -> Z -> Z -> Z -> res Z) : res Z :=
  let* b1 := rd connI (cell1 + 1) in let* a1 := rd connI cell1 in
  let* b2 := rd connI (cell2 + 1) in let* a2 := rd connI cell2 in
  if b1 - a1 =? b2 - a2 then k a1 b1 a2 b2 else Ok 0.
Definition sameType (conn : list Z) (a1 a2 : Z) (k : Z -> res Z) : res Z :=
  let* t1 := rd conn a1 in let* t2 := rd conn a2 in if t1 =? t2 then k t1 else Ok 0.
(** MEDCouplingUMesh.cxx 2050-2056. *)
Definition AreCellsEqualPolicy0 (conn connI : list Z) (cell1 cell2 : Z) : res Z :=
  sameSize connI cell1 cell2 (fun a1 b1 a2 b2 =>
  let* x := range conn (a1 + 1) b1 in let* y := range conn (a2 + 1) b2 in
  Ok (if bool_decide (x = y) then 1 else 0)).
(** 2061-2097. *)
Definition AreCellsEqualPolicy1 (conn connI : list Z) (cell1 cell2 : Z) : res Z :=
  sameSize connI cell1 cell2 (fun a1 b1 a2 b2 => sameType conn a1 a2 (fun t =>
  let* cm := GetCellModel t in
  if negb (cm_dim cm =? 3) then
    let* x := range conn (a1 + 1) b1 in let* y := range conn (a2 + 1) b2 in
    if negb (cm_dim cm =? 1) then Ok (if search (x ++ x) y =? 2 * (b1 - a1 - 1) then 0 else 1)
    else Ok (if bool_decide (x = y) then 1 else 0)
  else Throw)).
(** 2102-2115. *)
Definition AreCellsEqualPolicy2 (conn connI : list Z) (cell1 cell2 : Z) : res Z :=
  sameSize connI cell1 cell2 (fun a1 b1 a2 b2 => sameType conn a1 a2 (fun _ =>
  let* x := range conn (a1 + 1) b1 in let* y := range conn (a2 + 1) b2 in
  Ok (if bool_decide (set_of x = set_of y) then 1 else 0))).
(** 2121-2133. *)
Definition AreCellsEqualPolicy2NoType (conn connI : list Z) (cell1 cell2 : Z) : res Z :=
  sameSize connI cell1 cell2 (fun a1 b1 a2 b2 =>
  let* x := range conn (a1 + 1) b1 in let* y := range conn (a2 + 1) b2 in
  Ok (if bool_decide (set_of x = set_of y) then 1 else 0)).
(** 2138-2202. *)
Definition AreCellsEqualPolicy7 (conn connI : list Z) (cell1 cell2 : Z) : res Z :=
  sameSize connI cell1 cell2 (fun a1 b1 a2 b2 => sameType conn a1 a2 (fun t =>
  let* cm := GetCellModel t in
  if negb (cm_dim cm =? 3) then
    let* x := range conn (a1 + 1) b1 in let* y := range conn (a2 + 1) b2 in
    if negb (cm_dim cm =? 1) then
      let sz1 := 2 * (b1 - a1 - 1) in
      if negb (search (x ++ x) y =? sz1) then Ok 1
      else if negb (search (reverse (x ++ x)) y =? sz1) then Ok 2 else Ok 0
    else if bool_decide (x = y) then Ok 1
    else if negb (cm_quad cm) then Ok (if bool_decide (reverse x = y) then 2 else 0)
    else (let* r := andR (sameAt conn (a1 + 1) (a2 + 2)) (andR (sameAt conn (a1 + 2) (a2 + 1)) (sameAt conn (a1 + 3) (a2 + 3))) in
          Ok (if r then 2 else 0))
  else Throw)).
(** 2207-2231. *)
Definition AreCellsEqualPolicy8 (conn connI : list Z) (cell1 cell2 : Z) : res Z :=
  sameSize connI cell1 cell2 (fun a1 b1 a2 b2 => sameType conn a1 a2 (fun t =>
  if t =? NORM_SEG3 then
    let* p := andR (sameAt conn (a1 + 1) (a2 + 1)) (sameAt conn (a1 + 2) (a2 + 2)) in
    if p then Ok 1 else
    let* q := andR (sameAt conn (a1 + 1) (a2 + 2)) (sameAt conn (a1 + 2) (a2 + 1)) in
    Ok (if q then 2 else 0)
  else Throw)).
(** 2236-2262. *)
Definition AreCellsEqualPolicy9 (conn connI : list Z) (cell1 cell2 : Z) : res Z :=
  let mid a1 a2 := let* d := sameAt conn (a1 + 3) (a2 + 3) in Ok (negb d) in
  sameSize connI cell1 cell2 (fun a1 b1 a2 b2 => sameType conn a1 a2 (fun t =>
  if t =? NORM_SEG3 then
    let* p := andR (sameAt conn (a1 + 1) (a2 + 1)) (andR (sameAt conn (a1 + 2) (a2 + 2)) (mid a1 a2)) in
    if p then Ok 1 else
    let* q := andR (sameAt conn (a1 + 1) (a2 + 2)) (andR (sameAt conn (a1 + 2) (a2 + 1)) (mid a1 a2)) in
    Ok (if q then 2 else 0)
  else Throw)).
(** 2022-2045. *)
Definition AreCellsEqual (conn connI : list Z) (cell1 cell2 compType : Z) : res Z :=
  if compType =? 0 then AreCellsEqualPolicy0 conn connI cell1 cell2
  else if compType =? 1 then AreCellsEqualPolicy1 conn connI cell1 cell2
  else if compType =? 2 then AreCellsEqualPolicy2 conn connI cell1 cell2
  else if compType =? 3 then AreCellsEqualPolicy2NoType conn connI cell1 cell2
  else if compType =? 7 then AreCellsEqualPolicy7 conn connI cell1 cell2
  else if compType =? 8 then AreCellsEqualPolicy8 conn connI cell1 cell2
  else if compType =? 9 then AreCellsEqualPolicy9 conn connI cell1 cell2
  else Throw.

(** * Search of the equal cells *)

(** MEDCouplingUMesh_internal.cxx 1009-1041: the result is extended; [true] when something was added. *)
Definition AreCellsEqualInPool (candidates : list Z) (compType : Z) (conn connI result : list Z) : res (bool * list Z) :=
  match candidates with
  | [] => Ok (false, result)
  | start :: rest =>
    foldM (fun '(ret, result) c =>
      let* status := AreCellsEqual conn connI start c compType in
      if negb (status =? 0) then
        let result := if (ret : bool) then result else result ++ [start] in
        Ok (true, result ++ [if status =? 1 then c else if status =? 2 then c + 1 else - (c + 1)])
      else Ok (ret, result)) rest (false, result)
  end.
(** std::find_if with inequality to -1, std::find, on [a,b): position of the first one, [b] when none. *)
Definition findNotSep (l : list Z) (a b : Z) : res Z :=
  let* x := range l a b in Ok (a + find_if (fun v => negb (v =? -1)) x).
Definition findId (l : list Z) (a b v : Z) : res Z :=
  let* x := range l a b in Ok (a + find_if (fun w => w =? v) x).
(** MEDCouplingUMesh.cxx 2303-2332 and 2353-2384: the cells that share the nodes of cell [i]; from [i] on in the array of each node
    when [fromMe].  [two]: the functor of policies 8 and 9, which looks only at the first two nodes (2265-2277). *)
Definition candidatesOf (two fromMe : bool) (conn connI revNodal revNodalI : list Z) (i : Z) : res (list Z) :=
  let* a := rd connI i in let* b := rd connI (i + 1) in
  let stop := if two then a + 3 else b in
  let cellsOf n :=
    let* lo := rd revNodalI n in let* hi := rd revNodalI (n + 1) in
    let* from := (if fromMe then findId revNodal lo hi i else Ok lo) in
    range revNodal from hi in
  let* p := findNotSep conn (a + 1) stop in
  if p =? stop then Ok [] else
  let* n := rd conn p in
  let* v2 := cellsOf n in
  forZ (p + 1) stop (fun k v2 =>
    if 1 <? zlen v2 then
      let* n := rd conn k in
      if 0 <=? n then (let* w := cellsOf n in Ok (set_intersection v2 w)) else Ok v2
    else Ok v2) v2.
(** 2386-2390: std::swap of the first element and the first one equal to [i]. *)
Definition bringFirst (v2 : list Z) (i : Z) : res (list Z) :=
  let* x := rd v2 0 in
  if negb (x =? i) then
    let p := find_if (fun w => w =? i) v2 in
    let* y := rd v2 p in let* v2 := wr v2 0 y in wr v2 p x
  else Ok v2.
(** MEDCouplingUMesh.cxx 2279-2412. *)
Definition FindCommonCellsAlgPrivate (two : bool) (compType startCellId : Z) (nodal nodalI revNodal revNodalI : list Z) : res (list Z * list Z) :=
  let nbOfCells := zlen nodalI - 1 in
  let* (commonCells, commonCellsI, _) := forZ startCellId nbOfCells (fun i '(common, commonI, isFetched) =>
    let* f := rd isFetched i in
    if (f : bool) then Ok (common, commonI, isFetched) else
    let* v2 := candidatesOf two (startCellId =? 0) nodal nodalI revNodal revNodalI i in
    if 1 <? zlen v2 then
      let* v2 := if startCellId =? 0 then Ok v2 else bringFirst v2 i in
      let* (found, common) := AreCellsEqualInPool v2 compType nodal nodalI common in
      if (found : bool) then
        let* pos := rd commonI (zlen commonI - 1) in
        let* group := range common pos (zlen common) in
        let group := if startCellId =? 0 then group else sort group in
        let common := take (Z.to_nat pos) common ++ group in
        let commonI := commonI ++ [zlen common] in
        let* isFetched := foldM (fun s c => wr s c true) group isFetched in
        Ok (common, commonI, isFetched)
      else Ok (common, commonI, isFetched)
    else Ok (common, commonI, isFetched)) ([], [0], replicate (Z.to_nat nbOfCells) false) in
  Ok (commonCells, commonCellsI).
(** MEDCouplingUMesh.cxx 4199-4205. *)
Definition getMeshDimension (m : umesh) : res Z := throw_if um_dim m <? -1 >>> Ok (um_dim m).
(** MEDCouplingUMesh.cxx 2453-2490. *)
Definition findCommonCells (m : umesh) (compType startCellId : Z) : res (list Z * list Z) :=
  let* (revNodal, revNodalI) := getReverseNodalConnectivity m in
  let* meshDim := getMeshDimension m in
  unchecked m (fun conn connI =>
  if negb (compType =? 8) && negb (compType =? 9) then FindCommonCellsAlgPrivate false compType startCellId conn connI revNodal revNodalI
  else throw_if negb (meshDim =? 1) >>> FindCommonCellsAlgPrivate true compType startCellId conn connI revNodal revNodalI).

(** * Removal of the duplicates *)

(** MEDCouplingUMesh.cxx 2702-2716 with the coordinates kept. *)
Definition buildPartOfMySelf (m : umesh) (ids : list Z) : res umesh :=
  let* d := getMeshDimension m in
  if negb (d =? -1) then buildPartOfMySelfKeepCoords m ids
  else throw_if negb (zlen ids =? 1) >>> let* x := rd ids 0 in throw_if negb (x =? 0) >>> Ok m.
(** MEDCouplingPointSet.cxx 1507-1521: the mesh without the duplicates and the array old to new. *)
Definition zipConnectivityTraducer (m : umesh) (compType startCellId : Z) : res (umesh * list Z) :=
  let* (commonCells, commonCellsI) := findCommonCells m compType startCellId in
  let* nbOfCells := getNumberOfCells m in
  let* (ret, newNbOfCells) := ConvertIndexArrayToO2N nbOfCells commonCells commonCellsI in
  let* ret := initialised ret in
  let* ret2 := invertArrayO2N2N2O (vec ret) newNbOfCells in
  let* ret2 := initialised ret2 in
  let* self := buildPartOfMySelf m ret2 in
  let* m' := setConnectivity m (um_conn self) (um_connI self) true in
  Ok (m', ret).

(** * Meshes on the same coordinates *)

(** MEDCouplingUMesh.cxx 8767-8839.  [sameCoords]: the meshes hold the same array of coordinates (the pointers are compared). *)
Definition MergeUMeshesOnSameCoords (meshes : list umesh) (sameCoords : bool) : res umesh :=
  match meshes with
  | [] => Throw
  | m0 :: _ =>
    let* meshDim := getMeshDimension m0 in
    throw_if negb sameCoords >>>
    let* (meshLgth, meshIndexLgth) := foldM (fun '(meshLgth, meshIndexLgth) m =>
      let* d := getMeshDimension m in
      throw_if negb (meshDim =? d) >>>
      match um_conn m with
      | None => UB
      | Some conn => let* n := getNumberOfCells m in Ok (meshLgth + zlen conn, meshIndexLgth + n)
      end) meshes (0, 0) in
    let* nodal := alloc Z meshLgth 1 in
    let* nodalIndex := alloc Z (meshIndexLgth + 1) 1 in
    let* (nodal, nodalIndex, _, _) := foldM (fun '(nodal, nodalIndex, ip, offset) m =>
      unchecked m (fun nod index =>
      let* nbOfCells := getNumberOfCells m in
      let meshLgth2 := zlen nod in
      let* nodal := copyc nod 0 meshLgth2 nodal offset in
      let* nodalIndex :=
        (if 0 <? ip then forZ 0 nbOfCells (fun k r => let* v := rd index (1 + k) in wrc r (ip + k) (v + offset)) nodalIndex
         else copyc index 0 (nbOfCells + 1) nodalIndex 0) in
      Ok (nodal, nodalIndex, (if 0 <? ip then ip + nbOfCells else nbOfCells + 1), offset + meshLgth2)))
      meshes (nodal, nodalIndex, 0, 0) in
    let* nodal := initialised nodal in
    let* nodalIndex := initialised nodalIndex in
    setConnectivity (UM meshDim (um_coords m0) None None []) (Some nodal) (Some nodalIndex) true
  end.
(** MEDCouplingUMesh.cxx 8867-8889: the mesh and one array old to new for each of the given meshes. *)
Definition FuseUMeshesOnSameCoords (meshes : list umesh) (sameCoords : bool) (compType : Z) : res (umesh * list (list Z)) :=
  let* ret := MergeUMeshesOnSameCoords meshes sameCoords in
  let* (ret, o2n) := zipConnectivityTraducer ret compType 0 in
  let* (corr, _) := foldM (fun '(corr, offset) m =>
    let* curNbOfCells := getNumberOfCells m in
    let* tmp := range o2n offset (offset + curNbOfCells) in
    Ok (corr ++ [tmp], offset + curNbOfCells)) meshes ([], 0) in
  Ok (ret, corr).
(** getMaxValueInArray, MEDCouplingMemArray.txx: an empty array is rejected. *)
Definition maxInArray (l : list Z) : res Z := match l with [] => Throw | x :: r => Ok (fold_left Z.max r x) end.
(** MEDCouplingUMesh.cxx 2533-2582: (the cells of [other] are all in [m], the array). *)
Definition areCellsIncludedIn (m other : umesh) (sameCoords : bool) (compType : Z) : res (bool * list Z) :=
  let* mesh := MergeUMeshesOnSameCoords [m; other] sameCoords in
  let* nbOfCells := getNumberOfCells m in
  throw_if negb ((compType =? 0) || (compType =? 1) || (compType =? 2)) >>>
  let* nbOther := getNumberOfCells other in
  if nbOther =? 0 then Ok (true, []) else
  let* (commonCells, commonCellsI) := findCommonCells mesh compType nbOfCells in
  let* nbMesh := getNumberOfCells mesh in
  let* (o2n, newNbOfCells) := ConvertIndexArrayToO2N nbMesh commonCells commonCellsI in
  let* o2n := initialised o2n in
  let* p0 := range o2n 0 nbOfCells in
  let* maxPart := maxInArray p0 in
  let ret := maxPart =? newNbOfCells - 1 in
  let* p1 := invertArrayO2N2N2O (vec p0) newNbOfCells in
  let* p1 := forZ maxPart (newNbOfCells - 1) (fun i pt => wrc pt (i + 1) (i + 1)) p1 in
  let* p1 := initialised p1 in
  let* p2 := range o2n nbOfCells nbMesh in
  let* p2 := foldM (fun r v => if (0 <=? v) && (v <? zlen p1) then (let* x := rd p1 v in Ok (r ++ [x])) else Throw) p2 [] in
  Ok (ret, p2).
(** MEDCouplingUMesh.cxx 2590-2628; [None]: no array is returned. *)
Definition areCellsIncludedInPolicy7 (m other : umesh) (sameCoords : bool) : res (bool * option (list Z)) :=
  let* mesh := MergeUMeshesOnSameCoords [m; other] sameCoords in
  let* thisNbCells := getNumberOfCells m in
  let* (commonCells, commonCellsI) := findCommonCells mesh 7 thisNbCells in
  let* otherNbCells := getNumberOfCells other in
  let* arr2 := forZ 0 (zlen commonCellsI - 1) (fun i arr2 =>
    let* a := rd commonCellsI i in let* start := rd commonCells a in
    if start <? thisNbCells then
      let* b := rd commonCellsI (i + 1) in
      forZ (a + 1) b (fun j arr2 =>
        let* c := rd commonCells j in
        let sig := if 0 <? c then 1 else -1 in
        let val := Z.abs c - 1 in
        if thisNbCells <=? val then wr arr2 (val - thisNbCells) (sig * (start + 1)) else Ok arr2) arr2
    else Ok arr2) (replicate (Z.to_nat otherNbCells) 0) in
  if bool_decide (0 ∈ arr2) then Ok (false, None) else Ok (true, Some arr2).

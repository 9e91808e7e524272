(** Cells cut, cleaned or converted: MEDCouplingUMesh::simplexize, removeDegenerated1DCells, convertToPolyTypes, convertAllToPoly and convertQuadraticCellsToLinear.
    Where the code fills arrays of a size computed before, the model appends, and compares the sizes at the end: too many values would be written out of the array,
    too few would leave values that are not initialised, and both are counted as undefined.  No time labels. *)
From Coq Require Import QArith.
From Verif Require Import Base DataArray CellTable CellModel UmModel TyModel DgModel.
Local Open Scope Z_scope.

(** The connectivity and its index with one more cell: pt = std::copy(...), ptI[1] = ptI[0] + size. *)
Definition push (s : list Z * list Z) (l : list Z) : res (list Z * list Z) :=
  let* last := rd s.2 (zlen s.2 - 1) in Ok (s.1 ++ l, s.2 ++ [last + zlen l]).

(** The body that the four methods simplexizePol0 (105-168), simplexizePol1 (173-236), simplexizePlanarFace5 (242-299) and simplexizePlanarFace6 (305-362) of
    MEDCouplingUMesh_internal.cxx have in common: the cells of type [cut] are replaced by cells of type [simplex] whose nodes are at the places [places];
    [more] cells and [moreConn] values are added for each of them. *)
Definition simplexizeCells (m : umesh) (dim cut simplex : Z) (places : list (list Z)) (more moreConn : Z) : res (umesh * list Z) :=
  checkConnectivityFullyDefined m (fun oldc ci =>
    throw_if negb (um_dim m =? dim) >>>
    let* nbOfCells := getNumberOfCells m in
    let* nbOfCutCells := getNumberOfCellsWithType m cut in
    if nbOfCutCells =? 0 then Ok (m, seqZ 0 (nbOfCells + more * nbOfCutCells)) else
    let* r := forZ 0 nbOfCells (fun i '(s, ret) =>
      let* a := rd ci i in
      let* t := rd oldc a in
      if t =? cut then
        foldM (fun '(s, ret) p => let* l := reads oldc ((fun k => a + k + 1) <$> p) in let* s := push s (simplex :: l) in Ok (s, ret ++ [i])) places (s, ret)
      else
        let* b := rd ci (i + 1) in
        let* l := rdn oldc a (b - a) in
        let* s := push s l in
        Ok (s, ret ++ [i])) (([], [0]), []) in
    let '((newConn, newConnI), ret) := r in
    ub_if negb (zlen newConn =? zlen oldc + moreConn * nbOfCutCells) || negb (zlen newConnI =? nbOfCells + more * nbOfCutCells + 1) || negb (zlen ret =? nbOfCells + more * nbOfCutCells) >>>
    let* m' := setConnectivity m (Some newConn) (Some newConnI) true in
    Ok (m', ret)).
(** MEDCouplingUMesh_internal.cxx 132-143 and 200-211; SplitterTetra.hxx 56-63: SPLIT_NODES_5_WO and SPLIT_NODES_6_WO. *)
Definition simplexizePol0 (m : umesh) : res (umesh * list Z) := simplexizeCells m 2 NORM_QUAD4 NORM_TRI3 [[0; 1; 2]; [0; 2; 3]] 1 3.
Definition simplexizePol1 (m : umesh) : res (umesh * list Z) := simplexizeCells m 2 NORM_QUAD4 NORM_TRI3 [[0; 1; 3]; [1; 2; 3]] 1 3.
Definition simplexizePlanarFace5 (m : umesh) : res (umesh * list Z) :=
  simplexizeCells m 3 NORM_HEXA8 NORM_TETRA4 [[0; 5; 1; 2]; [0; 4; 5; 7]; [0; 3; 7; 2]; [5; 7; 6; 2]; [0; 5; 2; 7]] 4 16.
Definition simplexizePlanarFace6 (m : umesh) : res (umesh * list Z) :=
  simplexizeCells m 3 NORM_HEXA8 NORM_TETRA4 [[0; 5; 1; 6]; [0; 1; 2; 6]; [0; 4; 5; 6]; [0; 7; 4; 6]; [0; 2; 3; 6]; [0; 3; 7; 6]] 5 21.
(** MEDCouplingUMesh.cxx 6165-6184: simplexize; PLANAR_FACE_5 is 5 and PLANAR_FACE_6 is 6. *)
Definition simplexize (m : umesh) (policy : Z) : res (umesh * list Z) :=
  if policy =? 0 then simplexizePol0 m else if policy =? 1 then simplexizePol1 m else
  if policy =? 5 then simplexizePlanarFace5 m else if policy =? 6 then simplexizePlanarFace6 m else Throw.

(** MEDCouplingUMesh.cxx 6332-6380: removeDegenerated1DCells. *)
Definition removeDegenerated1DCells (m : umesh) : res (umesh * bool) :=
  checkConnectivityFullyDefined m (fun conn conni =>
    throw_if negb (um_dim m =? 1) >>>
    let* nbCells := getNumberOfCells m in
    let* sizes := forZ 0 nbCells (fun i '(newSize, newSize2) =>
      let* a := rd conni i in
      let* ct := rd conn a in
      if (ct =? NORM_SEG2) || (ct =? NORM_SEG3) then
        let* x := rd conn (a + 1) in let* y := rd conn (a + 2) in
        if negb (x =? y) then (let* b := rd conni (i + 1) in Ok (newSize + 1, newSize2 + (b - a))) else Ok (newSize, newSize2)
      else Throw) (0, 0) in
    if sizes.1 =? nbCells then Ok (m, false) else
    let* s := forZ 0 nbCells (fun i s =>
      let* a := rd conni i in
      let* x := rd conn (a + 1) in let* y := rd conn (a + 2) in
      if negb (x =? y) then (let* b := rd conni (i + 1) in let* l := rdn conn a (b - a) in push s l) else Ok s) ([], [0]) in
    ub_if negb (zlen s.1 =? sizes.2) || negb (zlen s.2 =? sizes.1 + 1) >>>
    let* m' := setConnectivity m (Some s.1) (Some s.2) true in
    Ok (m', true)).

(** MEDCouplingUMesh.cxx 1359-1447: convertToPolyTypes.  The mesh that an exception leaves is not modelled. *)
Definition convertToPolyTypes (m : umesh) (ids : list Z) : res umesh :=
  checkFullyDefined m (fun _ conn connIndex =>
    throw_if (um_dim m <? 2) || (3 <? um_dim m) >>>
    let* nbOfCells := getNumberOfCells m in
    if um_dim m =? 2 then
      let* conn := foldM (fun conn id =>
        if (0 <=? id) && (id <? nbOfCells) then
          let* a := rd connIndex id in
          let* t := rd conn a in
          let* c := GetCellModel t in
          wr conn a (if negb (cm_quad c) then NORM_POLYGON else NORM_QPOLYG)
        else Throw) ids conn in
      setConnectivity m (Some conn) (Some connIndex) true
    else
      let* toBeDone := foldM (fun done id => if (0 <=? id) && (id <? nbOfCells) then wr done id true else Throw) ids (replicate (Z.to_nat nbOfCells) false) in
      let* s := forZ 0 nbOfCells (fun cellId s =>
        let* pos := rd connIndex cellId in
        let* posP1 := rd connIndex (cellId + 1) in
        let lgthOld := posP1 - pos - 1 in
        let* todo := rd toBeDone cellId in
        if (todo : bool) then
          let* t := rd conn pos in
          let* c := GetCellModel t in
          let* l := rdn conn (pos + 1) lgthOld in
          let nbOfFaces := getNumberOfSons2 c l in
          let* work := forZ 0 nbOfFaces (fun j work => let* f := fillSon2 c j l in Ok (work ++ f.2 ++ [-1])) [NORM_POLYHED] in
          ub_if (nbOfFaces * lgthOld + 1 <? zlen work) >>>
          push s (take (Z.to_nat (zlen work - 1)) work)
        else
          let* l := rdn conn pos (posP1 - pos) in push s l) ([], [0]) in
      setConnectivity m (Some s.1) (Some s.2) true).
(** MEDCouplingUMesh.cxx 1459-1465: convertAllToPoly. *)
Definition convertAllToPoly (m : umesh) : res umesh := let* nbOfCells := getNumberOfCells m in convertToPolyTypes m (seqZ 0 nbOfCells).

(** MEDCouplingUMesh.cxx 5727-5783: convertQuadraticCellsToLinear. *)
Definition convertQuadraticCellsToLinear (m : umesh) : res umesh :=
  checkFullyDefined m (fun _ icptr iciptr =>
    let* nbOfCells := getNumberOfCells m in
    let* delta := forZ 0 nbOfCells (fun i delta =>
      let* type := typeAt icptr iciptr i in
      let* c := GetCellModel type in
      if cm_quad c then
        let* cl := GetCellModel (cm_lin c) in
        if negb (cm_dyn cl) then Ok (delta + (cm_nbpts c - cm_nbpts cl))
        else (let* a := rd iciptr i in let* b := rd iciptr (i + 1) in Ok (delta + Z.quot (b - a - 1) 2))
      else Ok delta) 0 in
    if delta =? 0 then Ok m else
    let* r := forZ 0 nbOfCells (fun i '(s, types) =>
      let* a := rd iciptr i in
      let* b := rd iciptr (i + 1) in
      let* type := rd icptr a in
      let* c := GetCellModel type in
      if negb (cm_quad c) then
        let* l := rdn icptr a (b - a) in
        let* s := push s l in
        Ok (s, insertType type types)
      else
        let* cl := GetCellModel (cm_lin c) in
        let newNbOfNodes := if cm_dyn cl then Z.quot (b - a - 1) 2 else cm_nbpts cl in
        let* l := rdn icptr (a + 1) newNbOfNodes in
        let* s := push s (cm_lin c :: l) in
        Ok (s, insertType (cm_lin c) types)) (([], [0]), []) in
    let '(s, types) := r in
    ub_if negb (zlen s.1 =? zlen icptr - delta) >>>
    Ok (UM (um_dim m) (um_coords m) (Some s.1) (Some s.2) types)).

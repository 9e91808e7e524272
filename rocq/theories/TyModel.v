(** The geometric types of the cells of an unstructured mesh: MEDCouplingUMesh.cxx, and splitByValueRange of MEDCouplingMemArray.txx. *)
From Coq Require Import QArith.
From Verif Require Import Base DataArray StdModel RenumModel SetsModel SearchModel SkyModel CellTable UmModel UcModel.
Local Open Scope Z_scope.

(** [conn[connI[i]]]: the type of cell [i]. *)
Definition typeAt (conn connI : list Z) (i : Z) : res Z := let* a := rd connI i in rd conn a.
(** std::find_if(connI+i, connI+nbOfCells, pred) with the functors ConnReader and ConnReader2 (7333-7355), which read the type of the cell:
    the rank of the first cell, [nbOfCells] when none; an iterator beyond the end runs out of the array. *)
Definition findType (p : Z -> bool) (conn connI : list Z) (i nbOfCells : Z) : res Z :=
  ub_if (nbOfCells <? i) >>>
  let* (r, _) := forZ i nbOfCells (fun j '(r, found) =>
    if (found : bool) then Ok (r, found) else let* t := typeAt conn connI j in Ok (if p t then (j, true) else (r, false))) (nbOfCells, false) in
  Ok r.
(** ConnReader: the first cell from [i] on with another type than [t]; ConnReader2: with type [t]. *)
Definition findOther (conn connI : list Z) (i nbOfCells t : Z) : res Z := findType (fun x => negb (x =? t)) conn connI i nbOfCells.
Definition findSame (conn connI : list Z) (i nbOfCells t : Z) : res Z := findType (fun x => x =? t) conn connI i nbOfCells.
(** [for(i=connI; i!=connI+nbOfCells;)]: the loop on the runs of cells with the same type; the body gives the next [i] or ends the loop.
    The number of rounds is not limited by the code; [nbOfCells]+1 tests of the condition suffice when each round moves forward. *)
Definition onRuns {St} (nbOfCells : Z) (body : Z -> St -> res (option Z * St)) (s : St) : res (option Z * St) :=
  whileM (S (Z.to_nat nbOfCells)) (fun '(i, _) => match i with Some i => Ok (negb (i =? nbOfCells)) | None => Ok false end)
    (fun '(i, s) => match i with Some i => body i s | None => Ok (i, s) end) (Some 0, s).

(** * Cells of a type *)

(** MEDCouplingUMesh.cxx 3869-3891. *)
Definition giveCellsWithType (m : umesh) (type : Z) : res (list Z) :=
  checkConnectivityFullyDefined m (fun pt ptI =>
  let* nbCells := getNumberOfCells m in
  let* mdim := getMeshDimension m in
  let* cm := GetCellModel type in
  throw_if negb (mdim =? cm_dim cm) >>>
  forZ 0 nbCells (fun i ret => let* t := typeAt pt ptI i in Ok (if t =? type then ret ++ [i] else ret)) []).
(** MEDCouplingUMesh.cxx 3897-3906: no check of the pointers. *)
Definition getNumberOfCellsWithType (m : umesh) (type : Z) : res Z :=
  unchecked m (fun pt ptI =>
  let* nbOfCells := getNumberOfCells m in
  forZ 0 nbOfCells (fun i ret => let* t := typeAt pt ptI i in Ok (if t =? type then ret + 1 else ret)) 0).
(** MEDCouplingUMesh.cxx 8159-8174. *)
Definition keepCellIdsByType (m : umesh) (type : Z) (ids : list Z) : res (list Z) :=
  checkFullyDefined m (fun _ conn connI =>
  foldM (fun ret w => let* t := typeAt conn connI w in Ok (if t =? type then ret ++ [w] else ret)) ids []).
(** MEDCouplingUMesh.cxx 8184-8209: one component, [tmp] is new mcIdType[nbOfCells]. *)
Definition convertCellArrayPerGeoType (m : umesh) (da : list Z) : res (list Z) :=
  checkFullyDefined m (fun _ conn connI =>
  let* nbOfCells := getNumberOfCells m in
  let* tmp := foldM (fun tmp type =>
    let* (tmp, _) := forZ 0 nbOfCells (fun i '(tmp, j) =>
      let* t := typeAt conn connI i in
      if t =? type then (let* tmp := wrc tmp i j in Ok (tmp, j + 1)) else Ok (tmp, j)) (tmp, 0) in
    Ok tmp) (um_types m) (malloc Z nbOfCells) in
  foldM (fun ret v => let* x := rdc tmp v in Ok (ret ++ [x])) da []).

(** * Cells sorted by type *)

(** MEDCouplingUMesh.cxx 7714-7731. *)
Definition checkConsecutiveCellTypes (m : umesh) : res bool :=
  checkFullyDefined m (fun _ conn connI =>
  let* nbOfCells := getNumberOfCells m in
  let* (i, _) := onRuns nbOfCells (fun i types =>
    let* curType := typeAt conn connI i in
    if smem curType types then Ok (None, types) else
    let* j := findOther conn connI (i + 1) nbOfCells curType in
    Ok (Some j, sins curType types)) [] in
  Ok (match i with Some _ => true | None => false end)).
(** MEDCouplingUMesh.cxx 7751-7789. *)
Definition checkConsecutiveCellTypesAndOrder (m : umesh) (order : list Z) : res bool :=
  checkFullyDefined m (fun _ conn connI =>
  let* nbOfCells := getNumberOfCells m in
  if nbOfCells =? 0 then Ok true else
  let* (i, _) := onRuns nbOfCells (fun i '(lastPos, sg) =>
    let* curType := typeAt conn connI i in
    let pos := find_if (fun t => t =? curType) order in
    if negb (pos =? zlen order) then
      if pos <=? lastPos then Ok (None, (lastPos, sg)) else
      let* j := findOther conn connI (i + 1) nbOfCells curType in
      Ok (Some j, (pos, sg))
    else
      if negb (smem curType sg) then
        let* j := findOther conn connI (i + 1) nbOfCells curType in
        Ok (Some j, (lastPos, sins curType sg))
      else Ok (None, (lastPos, sg))) (-1, []) in
  Ok (match i with Some _ => true | None => false end)).
(** MEDCouplingUMesh.cxx 63-71. *)
Definition MEDMEM_ORDER : list Z :=
  [NORM_POINT1; NORM_SEG2; NORM_SEG3; NORM_SEG4; NORM_POLYL; NORM_TRI3; NORM_QUAD4; NORM_TRI6; NORM_TRI7; NORM_QUAD8; NORM_QUAD9; NORM_POLYGON;
   NORM_QPOLYG; NORM_TETRA4; NORM_PYRA5; NORM_PENTA6; NORM_HEXA8; NORM_HEXGP12; NORM_TETRA10; NORM_PYRA13; NORM_PENTA15; NORM_PENTA18;
   NORM_HEXA20; NORM_HEXA27; NORM_POLYHED].
(** MEDCouplingUMesh.cxx 7738-7742. *)
Definition checkConsecutiveCellTypesForMEDFileFrmt (m : umesh) : res bool := checkConsecutiveCellTypesAndOrder m MEDMEM_ORDER.
(** MEDCouplingUMesh.cxx 7797-7838: for each cell the position of its type in [order]; for each type of [order] the number of its cells. *)
Definition getLevArrPerCellTypes (m : umesh) (order : list Z) : res (list Z * list Z) :=
  checkConnectivityFullyDefined m (fun conn connI =>
  let* nbOfCells := getNumberOfCells m in
  let* tmpa := alloc Z nbOfCells 1 in
  let* (tmp, tmp2) := forZ 0 nbOfCells (fun i '(tmp, tmp2) =>
    let* t := typeAt conn connI i in
    let pos := find_if (fun x => x =? t) order in
    throw_if pos =? zlen order >>>
    let* n := rd tmp2 pos in
    let* tmp2 := wr tmp2 pos (n + 1) in
    let* tmp := wrc tmp i pos in
    Ok (tmp, tmp2)) (tmpa, replicate (length order) 0) in
  let* tmp := initialised tmp in
  Ok (tmp, tmp2)).
(** MEDCouplingUMesh.cxx 7862-7872. *)
Definition getRenumArrForConsecutiveCellTypesSpec (m : umesh) (order : list Z) : res (list Z) :=
  let* (tmpa, _) := getLevArrPerCellTypes m order in
  let* r := buildPermArrPerLevel (vec tmpa) in
  initialised r.
(** MEDCouplingUMesh.cxx 7848-7852. *)
Definition getRenumArrForMEDFileFrmt (m : umesh) : res (list Z) := getRenumArrForConsecutiveCellTypesSpec m MEDMEM_ORDER.
(** MEDCouplingUMesh.cxx 7700-7707: the mesh and the array old to new. *)
Definition sortCellsInMEDFileFrmt (m : umesh) : res (umesh * list Z) :=
  checkConnectivityFullyDefined m (fun _ _ =>
  let* ret := getRenumArrForMEDFileFrmt m in
  let* m' := renumberCells m ret false in
  Ok (m', ret)).
(** MEDCouplingUMesh.cxx 7882-7915: the mesh and the array old to new.  [fuel]: the number of times the condition of the first loop is tested.
    computeTypes (4216-4219). *)
Definition rearrange2ConsecutiveCellTypes (fuel : nat) (m : umesh) : res (umesh * list Z) :=
  checkFullyDefined m (fun _ conn connI =>
  let* _types := ComputeAllTypesInternal (um_types m) (Some conn) (Some connI) in
  let* nbOfCells := getNumberOfCells m in
  let* (_, types) := whileM fuel (fun '(i, types) => Ok (negb (i =? nbOfCells) && negb (zlen types =? zlen _types)))
    (fun '(i, types) =>
      let* curType := typeAt conn connI i in
      if find_if (fun x => x =? curType) types =? zlen types then
        let* j := findOther conn connI (i + 1) nbOfCells curType in
        Ok (j, types ++ [curType])
      else Ok (i, types)) (0, []) in
  let* ret := alloc Z nbOfCells 1 in
  let ret := replicate (length ret) (-1) in
  let* (ret, _) := foldM (fun '(ret, newCellId) type =>
    forZ 0 nbOfCells (fun i '(ret, newCellId) =>
      let* t := typeAt conn connI i in
      if t =? type then (let* ret := wr ret i newCellId in Ok (ret, newCellId + 1)) else Ok (ret, newCellId)) (ret, newCellId)) types (ret, 0) in
  let* m' := renumberCells (UM (um_dim m) (um_coords m) (um_conn m) (um_connI m) _types) ret false in
  Ok (m', ret)).
(** MEDCouplingUMesh.cxx 7922-7944. *)
Definition splitByType (m : umesh) : res (list umesh) :=
  checkConnectivityFullyDefined m (fun conn connI =>
  let* nbOfCells := getNumberOfCells m in
  let* (_, ret) := onRuns nbOfCells (fun i ret =>
    let* curType := typeAt conn connI i in
    let* j := findOther conn connI (i + 1) nbOfCells curType in
    let sz := j - i in
    let* p := buildPartOfMySelf m (seqZ i sz) in
    Ok (Some j, ret ++ [p])) [] in
  Ok ret).

(** * Numbers of cells per type, profiles *)

(** MEDCouplingUMesh.cxx 7368-7399. *)
Definition getDistributionOfTypes (m : umesh) : res (list Z) :=
  checkConnectivityFullyDefined m (fun conn connI =>
  let* nbOfCells := getNumberOfCells m in
  let n := zlen (um_types m) in
  let* (_, (i, ret, _)) := onRuns nbOfCells (fun work '(i, ret, types) =>
    let* typ := typeAt conn connI work in
    throw_if smem typ types >>>
    let* ret := wr ret (3 * i) typ in
    let* work2 := findOther conn connI (work + 1) nbOfCells typ in
    let* ret := wr ret (3 * i + 1) (work2 - work) in
    Ok (Some work2, (i + 1, ret, sins typ types))) (0, replicate (Z.to_nat (3 * n)) (-1), []) in
  Ok ret).
(** MEDCouplingUMesh.cxx 7418-7537.  [idsPerType]: the values of the profiles, allocated with one component; [None] is a null pointer.
    The result [None] is the null pointer;
    an element [None] of the array is one that was never written. *)
Definition checkTypeConsistencyAndContig (m : umesh) (code : list Z) (idsPerType : list (option (list Z))) : res (option (list (option Z))) :=
  throw_if zlen code =? 0 >>>
  let n := Z.quot (zlen code) 3 in
  throw_if negb (Z.rem (zlen code) 3 =? 0) >>>
  let* (types, nb, isNoPflUsed) := forZ 0 n (fun i '(types, nb, isNoPflUsed) =>
    let* t := rd code (3 * i) in
    if find_if (fun x => x =? t) types =? zlen types then
      let* c := rd code (3 * i + 1) in
      throw_if negb (smem t (um_types m)) >>>
      let* p := rd code (3 * i + 2) in
      Ok (types ++ [t], nb + c, isNoPflUsed && (p =? -1))
    else Ok (types, nb, isNoPflUsed)) ([], 0, true) in
  throw_if negb (zlen types =? n) >>>
  let* done := (if (isNoPflUsed : bool) then
    let* b := checkConsecutiveCellTypesAndOrder m types in
    throw_if negb b >>> Ok (zlen types =? zlen (um_types m))
  else Ok false) in
  if (done : bool) then Ok None else
  let* ret := alloc Z nb 1 in
  unchecked m (fun conn connI =>
  let* nbOfCells := getNumberOfCells m in
  let* (ret, _, _) := forZ 0 (zlen types) (fun kk '(ret, pos, i) =>
    let* it := rd types kk in
    let* i := findSame conn connI i nbOfCells it in
    let offset := i in
    let* j := findOther conn connI (i + 1) nbOfCells it in
    let nbOfCellsOfCurType := j - i in
    let* id := rd code (3 * kk + 2) in
    if id =? -1 then
      let* ret := forZ 0 nbOfCellsOfCurType (fun k ret => wrc ret (pos + k) (k + offset)) ret in
      Ok (ret, pos + nbOfCellsOfCurType, j)
    else
      throw_if (id <? 0) || (zlen idsPerType <=? id) >>>
      let* pfl := rd idsPerType id in
      match pfl with
      | None => Throw
      | Some zePfl =>
        let* (ret, pos) := foldM (fun '(ret, pos) k =>
          throw_if (k <? 0) || (nbOfCellsOfCurType <=? k) >>>
          let* ret := wrc ret pos (k + offset) in Ok (ret, pos + 1)) zePfl (ret, pos) in
        Ok (ret, pos, j)
      end) (ret, 0, 0) in
  Ok (Some ret)).
(** MEDCouplingMemArray.txx 4944-5003: the cast of each value, its rank in the cast, the casts present.
    The std::size_t [pos2] of a value below the first bound wraps to a large value: it is negative here. *)
Definition splitByValueRange (d : da Z) (arr : list Z) : res (list Z * list Z * list Z) :=
  checkAllocated d (checkOneComp d (
  throw_if zlen arr <? 2 >>>
  let nbOfCast := zlen arr - 1 in
  let* (ret1, ret2, castsDetected) := forZ 0 (da_nt d) (fun i '(ret1, ret2, castsDetected) =>
    let* v := rd (da_vals d) i in
    let pos2 := nbOfCast - find_if (fun x => x <=? v) (rev arr) in
    if (0 <=? pos2) && (pos2 <? nbOfCast) then
      let* low := rd arr pos2 in
      Ok (ret1 ++ [pos2], ret2 ++ [v - low], sins pos2 castsDetected)
    else Throw) ([], [], []) in
  Ok (ret1, ret2, castsDetected))).
(** MEDCouplingUMesh.cxx 7557-7632: code, idsInPflPerType, idsPerType. *)
Definition splitProfilePerType (m : umesh) (profile : da Z) (smartPflKiller : bool) : res (list Z * list (list Z) * list (list Z)) :=
  throw_if negb (da_nc profile =? 1) >>>
  checkConnectivityFullyDefined m (fun conn connI =>
  let* nbOfCells := getNumberOfCells m in
  let* (_, (types, typeRangeVals)) := onRuns nbOfCells (fun i '(types, typeRangeVals) =>
    let* curType := typeAt conn connI i in
    throw_if negb (find_if (fun x => x =? curType) types =? zlen types) >>>
    let* j := findOther conn connI (i + 1) nbOfCells curType in
    Ok (Some j, (types ++ [curType], typeRangeVals ++ [j]))) ([], [0]) in
  let* (castArr, rankInsideCast, castsPresent) := splitByValueRange profile typeRangeVals in
  foldM (fun '(code, idsInPflPerType, idsPerType) castId =>
    let* tmp3 := findIdsEqual castId (vec castArr) in
    let* t := rd types castId in
    let* tmp4 := mySelectByTupleId (vec rankInsideCast) tmp3 in
    let* tmp4 := initialised (da_vals tmp4) in
    let* hi := rd typeRangeVals (castId + 1) in
    let* lo := rd typeRangeVals castId in
    let* iota := isIota (hi - lo) (vec tmp4) in
    if negb smartPflKiller || negb iota
    then Ok (code ++ [t; zlen tmp3; zlen idsPerType], idsInPflPerType ++ [tmp3], idsPerType ++ [tmp4])
    else Ok (code ++ [t; zlen tmp3; -1], idsInPflPerType ++ [tmp3], idsPerType)) castsPresent ([], [], [])).
(** MEDCouplingUMesh.cxx 8217-8265. *)
Definition keepSpecifiedCells (m : umesh) (type : Z) (idsPerGeoType : list Z) : res umesh :=
  let* code := getDistributionOfTypes m in
  let nOfTypesInThis := Z.quot (zlen code) 3 in
  let* (sz, szOfType) := forZ 0 nOfTypesInThis (fun i '(sz, szOfType) =>
    let* t := rd code (3 * i) in let* c := rd code (3 * i + 1) in
    Ok (if negb (t =? type) then (sz + c, szOfType) else (sz, c))) (0, 0) in
  throw_if existsb (fun w => (w <? 0) || (szOfType <=? w)) idsPerGeoType >>>
  let* idsTokeep := alloc Z (sz + zlen idsPerGeoType) 1 in
  let* (idsTokeep, _, _) := forZ 0 nOfTypesInThis (fun i '(r, pos, offset) =>
    let* t := rd code (3 * i) in let* c := rd code (3 * i + 1) in
    if negb (t =? type) then
      let* r := forZ 0 c (fun j r => wrc r (pos + j) (offset + j)) r in Ok (r, pos + c, offset + c)
    else
      let* r := forZ 0 (zlen idsPerGeoType) (fun j r => let* v := rd idsPerGeoType j in wrc r (pos + j) (v + offset)) r in
      Ok (r, pos + zlen idsPerGeoType, offset + c)) (idsTokeep, 0, 0) in
  let* idsTokeep := initialised idsTokeep in
  buildPartOfMySelf m idsTokeep.

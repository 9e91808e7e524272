(** Cells of a mesh replaced: MEDCouplingUMesh::setPartOfMySelf. *)
From Coq Require Import QArith.
From Verif Require Import Base DataArray SlicesModel IndexModel SkyModel CellTable CellModel UmModel UcModel.
Local Open Scope Z_scope.

(** MEDCouplingUMesh.cxx 2732-2808.  [sameCoords] is the comparison of the two pointers on the coordinates (2739).  The arrays made by SetPartOfIndexedArrays must be written
    up to their end: a value left unset would be in the connectivity of the mesh, undefined here. *)
Definition setPartOfMySelf (sameCoords : bool) (m : umesh) (cellIds : list Z) (other : umesh) : res umesh :=
  checkConnectivityFullyDefined m (fun conn connI =>
  checkConnectivityFullyDefined other (fun connOther connIOther =>
  throw_if negb sameCoords >>>
  let* d := getMeshDimension m in
  let* dOther := getMeshDimension other in
  throw_if negb (d =? dOther) >>>
  let* nbOther := getNumberOfCells other in
  throw_if negb (zlen cellIds =? nbOther) >>>
  let* nbOfCells := getNumberOfCells m in
  let* (easyAssign, _) := foldM (fun '(easy, s) it =>
    if easy : bool then
      if (0 <=? it) && (it <? nbOfCells) then
        let* s1 := rd connIOther (s + 1) in let* s0 := rd connIOther s in
        let* b := rd connI (it + 1) in let* a := rd connI it in
        Ok ((s1 - s0) =? (b - a), s + 1)
      else Throw
    else Ok (easy, s)) cellIds (true, 0) in
  if easyAssign : bool then
    let* c := SetPartOfIndexedArraysSameIdx cellIds conn connI connOther connIOther in
    setConnectivity m (Some c) (Some connI) true
  else
    let* (o, io) := SetPartOfIndexedArrays cellIds conn connI connOther connIOther in
    let* c := initialised o in
    let* ci := initialised io in
    setConnectivity m (Some c) (Some ci) true)).
(** MEDCouplingUMesh.cxx 2810-2890: setPartOfMySelfSlice; same simplifications. *)
Definition setPartOfMySelfSlice (sameCoords : bool) (m : umesh) (start stop step : Z) (other : umesh) : res umesh :=
  checkConnectivityFullyDefined m (fun conn connI =>
  checkConnectivityFullyDefined other (fun connOther connIOther =>
  throw_if negb sameCoords >>>
  let* d := getMeshDimension m in
  let* dOther := getMeshDimension other in
  throw_if negb (d =? dOther) >>>
  let* nbOfCellsToModify := GetNumberOfItemGivenBESRelative start stop step in
  let* nbOther := getNumberOfCells other in
  throw_if negb (nbOfCellsToModify =? nbOther) >>>
  let* nbOfCells := getNumberOfCells m in
  let* (easyAssign, _) := forZ 0 nbOfCellsToModify (fun i '(easy, it) =>
    if easy : bool then
      if (0 <=? it) && (it <? nbOfCells) then
        let* s1 := rd connIOther (i + 1) in let* s0 := rd connIOther i in
        let* b := rd connI (it + 1) in let* a := rd connI it in
        Ok ((s1 - s0) =? (b - a), it + step)
      else Throw
    else Ok (easy, it)) (true, start) in
  if easyAssign : bool then
    let* c := SetPartOfIndexedArraysSameIdxSlice start stop step conn connI connOther connIOther in
    setConnectivity m (Some c) (Some connI) true
  else
    let* (o, io) := SetPartOfIndexedArraysSlice start stop step conn connI connOther connIOther in
    let* c := initialised o in
    let* ci := initialised io in
    setConnectivity m (Some c) (Some ci) true)).

(** Meshes turned over and tests on their cells: MEDCouplingUMesh::invertOrientationOfAllCells, changeOrientationOfCells, isFullyQuadratic and isPresenceOfQuadratic.
    The operations on one cell are those of CellModel.v.  No time labels. *)
From Coq Require Import QArith.
From Verif Require Import Base DataArray CellTable CellModel UmModel UcModel TyModel DgModel.
Local Open Scope Z_scope.

(** The nodes of cell [i], rewritten in place by [op]: op(conn + connI[i] + 1, conn + connI[i + 1]). *)
Definition onCell (connI : list Z) (conn : list Z) (i : Z) (op : list Z -> res (list Z)) : res (list Z) :=
  let* a := rd connI i in
  let* b := rd connI (i + 1) in
  let* l := rdn conn (a + 1) (b - a - 1) in
  let* l' := op l in
  wrn conn (a + 1) l'.
(** MEDCouplingUMesh.cxx 6601-6617: invertOrientationOfAllCells.  BuildInstanceFrom throws for a type it does not know; here [operate] does, so a type of the set without cell is not refused. *)
Definition invertOrientationOfAllCells (m : umesh) : res umesh :=
  checkConnectivityFullyDefined m (fun conn conni =>
    let* conn' := foldM (fun conn gt =>
      let* cwt := giveCellsWithType (UM (um_dim m) (um_coords m) (Some conn) (Some conni) (um_types m)) gt in
      foldM (fun conn i => onCell conni conn i (invertOrientation gt)) cwt conn) (um_types m) conn in
    Ok (UM (um_dim m) (um_coords m) (Some conn') (Some conni) (um_types m))).
(** MEDCouplingUMesh.cxx 6478-6508: changeOrientationOfCells. *)
Definition changeOrientationOfCells (m : umesh) : res umesh :=
  let* mdim := getMeshDimension m in
  throw_if negb (mdim =? 2) && negb (mdim =? 1) >>>
  let* nbOfCells := getNumberOfCells m in
  unchecked m (fun conn connI =>
    let* conn' := forZ 0 nbOfCells (fun i conn =>
      let* type := typeAt conn connI i in
      let* c := GetCellModel type in
      onCell connI conn i (if mdim =? 2 then changeOrientationOf2D c else changeOrientationOf1D c)) conn in
    Ok (UM (um_dim m) (um_coords m) (Some conn') (Some connI) (um_types m))).

(** MEDCouplingUMesh.cxx 5684-5697: isFullyQuadratic; the loop stops at the first cell that is not. *)
Definition isFullyQuadratic (m : umesh) : res bool :=
  checkFullyDefined m (fun _ conn connI =>
    let* nbOfCells := getNumberOfCells m in
    forZ 0 nbOfCells (fun i (ret : bool) => if ret then (let* t := typeAt conn connI i in let* c := GetCellModel t in Ok (cm_quad c)) else Ok ret) true).
(** MEDCouplingUMesh.cxx 5705-5718: isPresenceOfQuadratic; the loop stops at the first cell that is. *)
Definition isPresenceOfQuadratic (m : umesh) : res bool :=
  checkFullyDefined m (fun _ conn connI =>
    let* nbOfCells := getNumberOfCells m in
    forZ 0 nbOfCells (fun i (ret : bool) => if negb ret then (let* t := typeAt conn connI i in let* c := GetCellModel t in Ok (cm_quad c)) else Ok ret) false).

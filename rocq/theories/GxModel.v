(** The connectivity of a mesh of one type without the types, and the types met: convertNodalConnectivityToStaticGeoTypeMesh, convertNodalConnectivityToDynamicGeoTypeMesh, getAllGeoTypesSorted, getTypesOfPart and getNumberOfNodesInCell of MEDCouplingUMesh. *)
From Coq Require Import QArith.
From Verif Require Import Base DataArray CellTable CellModel UmModel TyModel DgModel.
Local Open Scope Z_scope.

(** MEDCouplingUMesh.cxx 7982-8027.  The array is filled from its start: a value beyond its size is undefined, and so is a value left unset. *)
Definition convertNodalConnectivityToStaticGeoTypeMesh (m : umesh) : res (list Z) :=
  checkConnectivityFullyDefined m (fun conn connI =>
  match um_types m with
  | [typ] =>
    let* c := GetCellModel typ in
    throw_if cm_dyn c >>>
    let* nbCells := getNumberOfCells m in
    let* out := forZ 0 nbCells (fun i out =>
      let* a := rd connI i in
      let* b := rd connI (i + 1) in
      let* t := rd conn a in
      if (t =? typ) && (b - a =? cm_nbpts c + 1) then
        (let* l := rdn conn (a + 1) (b - (a + 1)) in
         ub_if nbCells * cm_nbpts c <? zlen out + zlen l >>> Ok (out ++ l))
      else Throw) [] in
    ub_if negb (zlen out =? nbCells * cm_nbpts c) >>> Ok out
  | _ => Throw
  end).
(** MEDCouplingUMesh.cxx 8035-8075: (nodalConn, nodalConnIndex). *)
Definition convertNodalConnectivityToDynamicGeoTypeMesh (m : umesh) : res (list Z * list Z) :=
  checkConnectivityFullyDefined m (fun conn connI =>
  throw_if negb (zlen (um_types m) =? 1) >>>
  let* nbCells := getNumberOfCells m in
  let lgth := zlen conn in
  throw_if lgth <? nbCells >>>
  let* (c, ci) := forZ 0 nbCells (fun i '(c, ci) =>
    let* a := rd connI i in
    let* stop := rd connI (i + 1) in
    let strt := a + 1 in
    let delta := stop - strt in
    throw_if negb (1 <=? delta) >>>
    throw_if negb ((0 <=? strt) && (strt <? lgth) && ((0 <=? stop) && (stop <=? lgth))) >>>
    let* l := rdn conn strt delta in
    ub_if lgth - nbCells <? zlen c + zlen l >>>
    let* last := rd ci i in
    Ok (c ++ l, ci ++ [last + delta])) ([], [0]) in
  ub_if negb (zlen c =? lgth - nbCells) >>> Ok (c, ci)).
(** MEDCouplingUMesh.cxx 521-539.  The vector [ret] is never empty when its last value is read. *)
Definition getAllGeoTypesSorted (m : umesh) : res (list Z) :=
  checkConnectivityFullyDefined m (fun conn connI =>
  let* nbOfCells := getNumberOfCells m in
  if nbOfCells =? 0 then Ok [] else
  throw_if zlen conn <? 1 >>>
  let* t0 := typeAt conn connI 0 in
  forZ 1 nbOfCells (fun i ret =>
    let* back := rd ret (zlen ret - 1) in
    let* t := typeAt conn connI i in
    if negb (back =? t) then Ok (ret ++ [t]) else Ok ret) [t0]).
(** MEDCouplingUMesh.cxx 4110-4119; the set as a sorted list. *)
Definition getTypesOfPart (m : umesh) (ids : list Z) : res (list Z) :=
  checkFullyDefined m (fun _ conn connI =>
  foldM (fun ret w => let* t := typeAt conn connI w in Ok (insertType t ret)) ids []).
(** MEDCouplingUMesh.cxx 4082-4097. *)
Definition getNumberOfNodesInCell (m : umesh) (cellId : Z) : res Z :=
  unchecked m (fun pt ptI =>
  let* a := rd ptI cellId in
  let* t := rd pt a in
  let* b := rd ptI (cellId + 1) in
  if negb (t =? NORM_POLYHED) then Ok (b - a - 1)
  else let* l := rdn pt (a + 1) (b - (a + 1)) in Ok (zlen (List.filter (fun v => negb (v =? -1)) l))).

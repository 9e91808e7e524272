(** Fields on unstructured meshes: where the values of a cell are, renumbering of the cells, extraction of a part.
    MEDCouplingFieldDiscretization.cxx and MEDCouplingFieldT.txx. *)
From Coq Require Import QArith Qabs.
From Verif Require Import Base DataArray StdModel RenumModel SlicesModel SetsModel IndexModel SkyModel CellTable UmModel UcModel GlModel.
Local Open Scope Z_scope.

(** The spatial discretizations MEDCouplingFieldDiscretizationP0, P1, Gauss and GaussNE (MEDCouplingFieldDiscretization.hxx).
    Simplification: the kriging and the on-nodes-FE discretizations are left out. *)
Inductive disc := P0 | P1 | GaussPt (g : gauss) | GaussNE.
(** A field (MEDCouplingFieldT.hxx): discretization, mesh, arrays of its time discretization (some may be null).
    Simplification: the mesh is not null and is an unstructured mesh; times and names are left out. *)
Record field (A : Type) := FD { fd_disc : disc; fd_mesh : umesh; fd_arrs : list (option (da A)) }.
Arguments FD {A}. Arguments fd_disc {A}. Arguments fd_mesh {A}. Arguments fd_arrs {A}.

(** An array whose values have all been written.  Simplification: an array with values left indeterminate is undefined here, the code goes on with them. *)
Definition allWritten {A} (d : da (option A)) : res (da A) := let* v := initialised (da_vals d) in Ok (DA (da_alloc d) (da_nc d) v).

(** * Sizes *)

(** MEDCouplingGaussLocalization.hxx 48. *)
Definition getNumberOfGaussPt (l : gloc) : Z := zlen (gl_w l).
(** MEDCouplingFieldDiscretization.cxx 2912-2947: buildNbOfGaussPointPerCellField. *)
Definition buildNbOfGaussPointPerCellField (g : gauss) : res (list (option Z)) :=
  match gd_dpc g with
  | None => Throw
  | Some dpc =>
    let* ret := alloc Z (zlen dpc) 1 in
    let nbMaxOfLocId := zlen (gd_loc g) in
    forZ 0 (zlen dpc) (fun i ret =>
      let* w := rd dpc i in
      throw_if w =? -1 >>>
      throw_if negb ((0 <=? w) && (w <? nbMaxOfLocId)) >>>
      let* l := rd (gd_loc g) w in
      wrc ret i (getNumberOfGaussPt l)) ret
  end.
(** MEDCouplingFieldDiscretization.cxx 2070-2093: MEDCouplingFieldDiscretizationGauss::getNumberOfTuples. *)
Definition gaussTuples (g : gauss) : res Z :=
  match gd_dpc g with
  | None => Throw
  | Some dpc =>
    let maxSz := zlen (gd_loc g) in
    foldM (fun ret w => if (0 <=? w) && (w <? maxSz) then (let* l := rd (gd_loc g) w in Ok (ret + getNumberOfGaussPt l)) else Throw) dpc 0
  end.
(** MEDCouplingFieldDiscretization.cxx 3119-3135: MEDCouplingFieldDiscretizationGaussNE::getNumberOfTuples; the number of nodes of the type of a cell,
    refused for polygons and polyhedra, is asked for in 3147-3166 (getOffsetArr) and 3690-3737 (buildSubMeshDataRange) in the same way. *)
Definition nodesOfType (m : umesh) (i : Z) : res Z :=
  let* t := getTypeOfCell m i in
  let* k := GetCellModel t in
  throw_if cm_dyn k >>> Ok (cm_nbpts k).
Definition neTuples (m : umesh) : res Z :=
  let* nbOfCells := getNumberOfCells m in
  forZ 0 nbOfCells (fun i ret => let* n := nodesOfType m i in Ok (ret + n)) 0.
(** getNumberOfTuples of P0 (945-951), P1 (1208-1214), Gauss and GaussNE. *)
Definition getNumberOfTuples (d : disc) (m : umesh) : res Z :=
  match d with P0 => getNumberOfCells m | P1 => getNumberOfNodes m | GaussPt g => gaussTuples g | GaussNE => neTuples m end.
(** std::iota on a new array of [n] values. *)
Definition iotaArr (n : Z) : res (list (option Z)) := let* a := alloc Z n 1 in forZ 0 n (fun i a => wrc a i i) a.
(** getOffsetArr of P0 (953-963), P1 (1299-1309), Gauss (2110-2142) and GaussNE (3147-3166).  [_discr_per_cell] of Gauss is read without a test of nullity. *)
Definition getOffsetArr (d : disc) (m : umesh) : res (list (option Z)) :=
  match d with
  | P0 => let* n := getNumberOfCells m in iotaArr (n + 1)
  | P1 => let* n := getNumberOfNodes m in iotaArr (n + 1)
  | GaussPt g =>
    let* nbOfTuples := getNumberOfCells m in
    let* ret := alloc Z (nbOfTuples + 1) 1 in
    match gd_dpc g with
    | None => UB
    | Some dpc =>
      throw_if negb (zlen dpc =? nbOfTuples) >>>
      let maxPossible := zlen (gd_loc g) in
      let* ret := wrc ret 0 0 in
      forZ 0 nbOfTuples (fun i ret =>
        let* s := rd dpc i in
        if (0 <=? s) && (s <? maxPossible)
        then (let* p := rdc ret i in let* l := rd (gd_loc g) s in wrc ret (i + 1) (p + getNumberOfGaussPt l))
        else Throw) ret
    end
  | GaussNE =>
    let* nbOfTuples := getNumberOfCells m in
    let* ret := alloc Z (nbOfTuples + 1) 1 in
    let* ret := wrc ret 0 0 in
    forZ 0 nbOfTuples (fun i ret =>
      let* n := nodesOfType m i in
      let* p := rdc ret i in wrc ret (i + 1) (p + n)) ret
  end.
(** The first tuple of a cell in getIJK of Gauss (2340-2348 with getOffsetOfCell 2897-2904: neither the array of ids nor the cell id is tested) and of
    GaussNE (3573-3588: dynamic types are not refused).  The base class (663-669) throws. *)
Definition offsetOf (d : disc) (m : umesh) (cellId : Z) : res Z :=
  match d with
  | P0 | P1 => Throw
  | GaussPt g =>
    match gd_dpc g with
    | None => UB
    | Some dpc => ub_if cellId <? 0 >>> forZ 0 cellId (fun i ret => let* w := rd dpc i in let* l := rd (gd_loc g) w in Ok (ret + getNumberOfGaussPt l)) 0
    end
  | GaussNE => forZ 0 cellId (fun i offset => let* t := getTypeOfCell m i in let* k := GetCellModel t in Ok (offset + cm_nbpts k)) 0
  end.
(** getIJK of the discretizations: DataArrayTemplate::getIJ does not test its arguments. *)
Definition getIJK {A} (d : disc) (m : umesh) (arr : da A) (cellId nodeIdInCell compoId : Z) : res A :=
  let* offset := offsetOf d m cellId in rd (da_vals arr) ((offset + nodeIdInCell) * da_nc arr + compoId).

(** * Consistency *)

(** checkCoherencyBetween of P0 (1027-1042), P1 (1338-1352), Gauss (2350-2392 with PerCell 1715-1731) and GaussNE (3590-3600).
    The array is not null. *)
Definition checkCoherencyBetween {A} (d : disc) (m : umesh) (arr : da A) : res unit :=
  match d with
  | P0 => let* n := getNumberOfCells m in throw_if negb (n =? da_nt arr) >>> Ok tt
  | P1 => let* n := getNumberOfNodes m in throw_if negb (n =? da_nt arr) >>> Ok tt
  | GaussPt g =>
    match gd_dpc g with
    | None => Throw
    | Some dpc =>
      let* nbOfTuples := getNumberOfCells m in
      throw_if negb (nbOfTuples =? zlen dpc) >>>
      let* _ := foldM (fun _ l => checkLoc l) (gd_loc g) tt in
      let* _ := forZ 0 (zlen dpc) (fun i _ =>
        let* rc := rd dpc i in
        throw_if zlen (gd_loc g) <=? rc >>>
        throw_if rc <? 0 >>>
        let* t := getTypeOfCell m i in
        let* l := rd (gd_loc g) rc in
        throw_if negb (t =? gl_type l) >>> Ok tt) tt in
      let* nb := gaussTuples g in
      throw_if negb (nb =? da_nt arr) >>> Ok tt
    end
  | GaussNE => let* n := neTuples m in throw_if negb (da_nt arr =? n) >>> Ok tt
  end.
(** getNumberOfTuplesExpectedRegardingCode of P0 (898-943), P1 (1216-1277: the same), Gauss (2018-2068) and GaussNE (3061-3117): the part common to all,
    with the number of tuples [per] of one entity of the type.  getMinValueInArray throws on an empty array (MEDCouplingMemArray.txx). *)
Definition codeSum (per : Z -> res Z) (code : list Z) (idsPerType : list (option (da Z))) : res Z :=
  throw_if negb (zlen code mod 3 =? 0) >>>
  forZ 0 (zlen code `quot` 3) (fun i ret =>
    let* t := rd code (3 * i) in
    let* n := per t in
    let* nbOfEltInChunk := rd code (3 * i + 1) in
    throw_if nbOfEltInChunk <? 0 >>>
    let* pos := rd code (3 * i + 2) in
    let* _ := if negb (pos =? -1) then
       throw_if (pos <? 0) || (zlen idsPerType <=? pos) >>>
       let* ids := rd idsPerType pos in
       match ids with
       | None => Throw
       | Some ids =>
         throw_if negb (da_alloc ids) >>> throw_if negb (da_nc ids =? 1) >>> throw_if negb (da_nt ids =? nbOfEltInChunk) >>>
         throw_if (zlen (da_vals ids) =? 0) || existsb (fun v => v <? 0) (da_vals ids) >>> Ok tt
       end
     else Ok tt in
    Ok (ret + nbOfEltInChunk * n)) 0.
Definition getNumberOfTuplesExpectedRegardingCode (d : disc) (code : list Z) (idsPerType : list (option (da Z))) : res Z :=
  match d with
  | P0 | P1 => codeSum (fun _ => Ok 1) code idsPerType
  | GaussPt g =>
    match gd_dpc g with
    | None => Throw
    | Some dpc => let* ret := codeSum (fun _ => Ok 1) code idsPerType in throw_if negb (ret =? zlen dpc) >>> gaussTuples g
    end
  | GaussNE => codeSum (fun t => let* k := GetCellModel t in throw_if cm_dyn k >>> Ok (cm_nbpts k)) code idsPerType
  end.

(** * Renumbering of the cells *)

(** The array used: that of the caller, or the ranks of its values ([check]; [n] values are read). *)
Definition permOf (check : bool) (old2New : list Z) (n : Z) : res (list Z) :=
  if check then (ub_if zlen old2New <? n >>> let* l := CheckAndPreparePermutationRaw (take (Z.to_nat n) old2New) in initialised l) else Ok old2New.
(** renumberInPlace of each array that is not null. *)
Definition inPlaceAll {A} (arrs : list (option (da A))) (p : list Z) : res (list (option (da A))) :=
  foldM (fun done a =>
    match a with
    | None => Ok (done ++ [None])
    | Some a => let '(r, a') := renumberInPlace a p in let* _ := r in let* a' := allWritten a' in Ok (done ++ [Some a'])
    end) arrs [].
(** MEDCouplingFieldDiscretization.cxx 1779-1793: MEDCouplingFieldDiscretizationPerCell::renumberCells (nothing for the others). *)
Definition discRenumberCells (d : disc) (old2New : list Z) (check : bool) : res disc :=
  match d with
  | GaussPt g =>
    match gd_dpc g with
    | None => UB
    | Some dpc =>
      let* array := permOf check old2New (zlen dpc) in
      let* r := renumber (vec dpc) array in
      let* v := initialised (da_vals r) in
      Ok (GaussPt (GD (Some v) (gd_loc g)))
    end
  | _ => Ok d
  end.
(** The renumbering of the tuples, 2159-2173: the localizations are already renumbered. *)
Definition gaussArray (g : gauss) (dpc array : list Z) : res (list Z) :=
  let nbOfCells := zlen dpc in
  let* nbOfTuples := gaussTuples g in
  let array2 := malloc Z nbOfTuples in
  let array3 := malloc Z nbOfCells in
  let* array3 := wrc array3 0 0 in
  let* array3 := forZ 1 nbOfCells (fun i a3 =>
    let* p := rdc a3 (i - 1) in let* c := rd dpc (i - 1) in let* l := rd (gd_loc g) c in
    wrc a3 i (p + getNumberOfGaussPt l)) array3 in
  let* (array2, _) := forZ 0 nbOfCells (fun i '(a2, j) =>
    let* v := rd array i in let* c := rd dpc v in let* l := rd (gd_loc g) c in
    forZ 0 (getNumberOfGaussPt l) (fun k '(a2, j) =>
      let* b := rdc array3 v in let* a2 := wrc a2 j (b + k) in Ok (a2, j + 1)) (a2, j)) (array2, 0) in
  initialised array2.
(** std::find on the first [n] values, as a position. *)
Fixpoint findPos (l : list Z) (x : Z) : Z := match l with [] => 0 | y :: r => if y =? x then 0 else 1 + findPos r x end.
(** The same in 3183-3203: the mesh has its old numbering. *)
Definition neArray (m : umesh) (array : list Z) : res (list Z) :=
  let* nbOfCells := getNumberOfCells m in
  let* nbOfTuples := neTuples m in
  let array2 := malloc Z nbOfTuples in
  let array3 := malloc Z nbOfCells in
  let* array3 := wrc array3 0 0 in
  let* array3 := forZ 1 nbOfCells (fun i a3 =>
    let* t := (ub_if zlen array <? nbOfCells >>> getTypeOfCell m (findPos (take (Z.to_nat nbOfCells) array) (i - 1))) in
    let* k := GetCellModel t in
    let* p := rdc a3 (i - 1) in
    wrc a3 i (p + cm_nbpts k)) array3 in
  let* (array2, _) := forZ 0 nbOfCells (fun i '(a2, j) =>
    let* t := getTypeOfCell m i in
    let* c := GetCellModel t in
    forZ 0 (cm_nbpts c) (fun k '(a2, j) =>
      let* v := rd array i in
      let* b := rdc array3 v in let* a2 := wrc a2 j (b + k) in Ok (a2, j + 1)) (a2, j)) (array2, 0) in
  initialised array2.
(** renumberArraysForCell of P0 (965-982), P1 (1292-1297), Gauss (2144-2179) and GaussNE (3168-3208). *)
Definition renumberArraysForCell {A} (d : disc) (m : umesh) (arrs : list (option (da A))) (old2New : list Z) (check : bool) : res (list (option (da A))) :=
  match d with
  | P0 => let* n := getNumberOfCells m in let* array := permOf check old2New n in inPlaceAll arrs array
  | P1 => Ok arrs
  | GaussPt g =>
    match gd_dpc g with
    | None => UB
    | Some dpc => let* array := permOf check old2New (zlen dpc) in let* array2 := gaussArray g dpc array in inPlaceAll arrs array2
    end
  | GaussNE => let* n := getNumberOfCells m in let* array := permOf check old2New n in let* array2 := neArray m array in inPlaceAll arrs array2
  end.
(** MEDCouplingFieldT.txx 312-327.  The discretization is renumbered first. *)
Definition renumberCellsWithoutMesh {A} (f : field A) (old2New : list Z) (check : bool) : res (field A) :=
  let* d := discRenumberCells (fd_disc f) old2New check in
  let* arrs := renumberArraysForCell d (fd_mesh f) (fd_arrs f) old2New check in
  Ok (FD d (fd_mesh f) arrs).
(** MEDCouplingFieldT.txx 282-290: the mesh of the result is a renumbered copy. *)
Definition fieldRenumberCells {A} (f : field A) (old2New : list Z) (check : bool) : res (field A) :=
  let* f := renumberCellsWithoutMesh f old2New check in
  let* m := renumberCells (fd_mesh f) old2New check in
  Ok (FD (fd_disc f) m (fd_arrs f)).

(** * Part of a field *)

(** computeTupleIdsToSelectFromCellIds of P0 (1142-1151), P1 (1432-1445), Gauss (2611-2632) and GaussNE (3746-3759). *)
Definition computeTupleIdsToSelectFromCellIds (d : disc) (m : umesh) (ids : list Z) : res (list Z) :=
  match d with
  | P0 => Ok ids
  | P1 => let* p := buildPartOfMySelf m ids in computeFetchedNodeIds p
  | GaussPt g =>
    let* nb := buildNbOfGaussPointPerCellField g in
    let* nb := initialised nb in
    let* nbOfCells := getNumberOfCells m in
    throw_if negb (zlen nb =? nbOfCells) >>>
    let* off := computeOffsetsFull (vec nb) in
    let* off := initialised off in
    let* sel := buildExplicitArrByRanges (vec ids) (Some (vec off)) in
    initialised sel
  | GaussNE =>
    let* nb := computeNbOfNodesPerCell m in
    let* nb := initialised nb in
    let* off := computeOffsetsFull (vec nb) in
    let* off := initialised off in
    let* sel := buildExplicitArrByRanges (vec ids) (Some (vec off)) in
    initialised sel
  end.
(** A mesh without the nodes it does not use, and the old ids of its nodes: 1369-1382, 1396-1422 with MEDCouplingPointSet.cxx 1184-1189, 1230-1243. *)
Definition reduceNodes (p : umesh) : res (umesh * list Z) :=
  let* (p, o2n) := zipCoordsTraducer p in
  let* n := getNumberOfNodes p in
  let* n2o := invertArrayO2N2N2O (vec o2n) n in
  let* n2o := initialised n2o in
  Ok (p, n2o).
(** buildSubMeshData of P0 (1160-1172), P1 (1369-1382), Gauss (2516-2527) and GaussNE (3665-3675): the mesh and the tuples to select. *)
Definition buildSubMeshData (d : disc) (m : umesh) (ids : list Z) : res (umesh * list Z) :=
  match d with
  | P0 => let* p := buildPartOfMySelf m ids in Ok (p, ids)
  | P1 => let* p := buildPartOfMySelf m ids in reduceNodes p
  | _ => let* di := computeTupleIdsToSelectFromCellIds d m ids in let* p := buildPartOfMySelf m ids in Ok (p, di)
  end.
(** clonePart: MEDCouplingFieldDiscretization.cxx 1653-1667 for the discretizations with ids per cell, a copy for the others. *)
Definition clonePart (d : disc) (ids : list Z) : res disc :=
  match d with
  | GaussPt g =>
    match gd_dpc g with
    | None => Ok d
    | Some dpc => let* r := mySelectByTupleIdSafe (vec dpc) ids in let* r := allWritten r in Ok (GaussPt (GD (Some (da_vals r)) (gd_loc g)))
    end
  | _ => Ok d
  end.
(** The selection of the tuples of each array that is not null. *)
Definition selectAll {A} (sel : da A -> res (da (option A))) (arrs : list (option (da A))) : res (list (option (da A))) :=
  foldM (fun done a =>
    match a with
    | None => Ok (done ++ [None])
    | Some a => let* r := sel a in let* r := allWritten r in Ok (done ++ [Some r])
    end) arrs [].
(** MEDCouplingFieldT.txx 558-592. *)
Definition buildSubPart {A} (f : field A) (ids : list Z) : res (field A) :=
  let* (p, di) := buildSubMeshData (fd_disc f) (fd_mesh f) ids in
  let* d := clonePart (fd_disc f) ids in
  let* arrs := selectAll (fun a => mySelectByTupleIdSafe a di) (fd_arrs f) in
  Ok (FD d p arrs).

(** MEDCouplingUMesh.cxx 2658-2677 with the coordinates kept. *)
Definition buildPartOfMySelfSlice (m : umesh) (b e s : Z) : res umesh :=
  let* d := getMeshDimension m in
  if negb (d =? -1) then buildPartOfMySelfKeepCoordsSlice m b e s
  else let* n := GetNumberOfItemGivenBESRelative b e s in throw_if negb (n =? 1) >>> throw_if negb (b =? 0) >>> Ok m.
(** MEDCouplingPointSet.cxx 1204-1217. *)
Definition buildPartRange (m : umesh) (b e s : Z) : res umesh :=
  let* n := getNumberOfCells m in
  if (b =? 0) && (e =? n) && (s =? 1) then Ok m else buildPartOfMySelfSlice m b e s.
(** The first and the past-the-end tuple of the cells [b,e): the loops of 2569-2598 and 3717-3734. *)
Definition rangeOfTuples (size : Z -> res Z) (nbOfCells b e : Z) : res (Z * Z) :=
  let* (beginOut, endOut, _) := forZ 0 nbOfCells (fun i '(beginOut, endOut, stop) =>
    if (stop : bool) then Ok (beginOut, endOut, stop) else
    let* delta := size i in
    let beginOut := if i <? b then beginOut + delta else beginOut in
    let endOut := endOut + delta in
    Ok (beginOut, endOut, e <=? i)) (0, 0, false) in
  Ok (beginOut, endOut).
(** What selects the tuples: their ids or a slice. *)
Inductive selection := Ids (l : list Z) | Slice (b e s : Z).
(** buildSubMeshDataRange of P0 (1186-1206), P1 (1396-1422), Gauss (2541-2602), GaussNE (3690-3737) and of the base class (592-606). *)
Definition buildSubMeshDataRange (d : disc) (m : umesh) (b e s : Z) : res (umesh * selection) :=
  let general :=
    let* ids := Range b e s in let* ids := initialised ids in
    let* (p, di) := buildSubMeshData d m ids in Ok (p, Ids di) in
  match d with
  | P0 => let* p := buildPartRange m b e s in Ok (p, Slice b e s)
  | P1 => let* p := buildPartOfMySelfSlice m b e s in let* (p, di) := reduceNodes p in Ok (p, Ids di)
  | GaussPt g =>
    if negb (s =? 1) then general else
    match gd_dpc g with
    | None => Throw
    | Some dpc =>
      let* (bo, eo) := rangeOfTuples (fun i =>
        let* w := rd dpc i in
        throw_if w =? -1 >>> throw_if negb ((0 <=? w) && (w <? zlen (gd_loc g))) >>>
        let* l := rd (gd_loc g) w in Ok (getNumberOfGaussPt l)) (zlen dpc) b e in
      let* p := buildPartRange m b e s in Ok (p, Slice bo eo s)
    end
  | GaussNE =>
    if negb (s =? 1) then general else
    let* n := getNumberOfCells m in
    let* (bo, eo) := rangeOfTuples (nodesOfType m) n b e in
    let* p := buildPartRange m b e s in Ok (p, Slice bo eo s)
  end.
(** clonePartRange: MEDCouplingFieldDiscretization.cxx 1669-1681 for the discretizations with ids per cell. *)
Definition clonePartRange (d : disc) (b e s : Z) : res disc :=
  match d with
  | GaussPt g =>
    match gd_dpc g with
    | None => Ok d
    | Some dpc => let* r := mySelectByTupleIdSafeSlice (vec dpc) b e s in let* r := allWritten r in Ok (GaussPt (GD (Some (da_vals r)) (gd_loc g)))
    end
  | _ => Ok d
  end.
(** MEDCouplingFieldT.txx 646-690. *)
Definition buildSubPartRange {A} (f : field A) (b e s : Z) : res (field A) :=
  let* (p, sel) := buildSubMeshDataRange (fd_disc f) (fd_mesh f) b e s in
  let* d := clonePartRange (fd_disc f) b e s in
  let* arrs := selectAll (fun a => match sel with Ids l => mySelectByTupleIdSafe a l | Slice b e s => mySelectByTupleIdSafeSlice a b e s end) (fd_arrs f) in
  Ok (FD d p arrs).

(** * Renumbering of the nodes *)

(** MEDCouplingFieldDiscretization.cxx 764-816.  [big] is the largest double.  Simplification: a negative number of entities is refused here. *)
Definition RenumberEntitiesFromO2NArr (big eps : Q) (old2New : list Z) (newNb : Z) (arr : da Q) : res (da Q) :=
  checkAllocated arr (
  throw_if newNb <? 0 >>>
  let nc := da_nc arr in
  let src := da_vals arr in
  let* pt := forZ 0 (da_nt arr) (fun i pt =>
    let* n := rd old2New i in
    if 0 <=? n then
      let* fresh := forZ 0 nc (fun k fresh => let* x := rd pt (n * nc + k) in Ok (fresh && Qeq_bool x big)) true in
      if fresh then forZ 0 nc (fun k pt => let* x := rd src (i * nc + k) in wr pt (n * nc + k) x) pt
      else
        let* far := forZ 0 nc (fun k far => let* x := rd src (i * nc + k) in let* y := rd pt (n * nc + k) in Ok (far || Qltb eps (Qabs (x - y)))) false in
        throw_if far >>> Ok pt
    else Ok pt) (replicate (Z.to_nat (nc * newNb)) big) in
  Ok (DA true nc pt)).
(** MEDCouplingFieldDiscretization.cxx 818-834. *)
Definition RenumberEntitiesFromN2OArr (new2Old : list Z) (arr : da Q) : res (da Q) :=
  checkAllocated arr (
  let nc := da_nc arr in
  let pt := malloc Q (nc * zlen new2Old) in
  let* pt := forZ 0 (zlen new2Old) (fun i pt =>
    let* o := rd new2Old i in
    copyc (da_vals arr) (o * nc) ((o + 1) * nc) pt (i * nc)) pt in
  let* v := initialised pt in
  Ok (DA true nc v)).
(** MEDCouplingFieldDouble.cxx 475-486 with renumberValuesOnNodes of P1 (1448-1453) and of the others (1112-1116, 2637-2641, 3765-3769: nothing). *)
Definition renumberNodesWithoutMesh (big eps : Q) (f : field Q) (old2New : list Z) (newNb : Z) : res (field Q) :=
  let* arrs := foldM (fun done a =>
    match a with
    | None => Ok (done ++ [None])
    | Some a => match fd_disc f with P1 => let* r := RenumberEntitiesFromO2NArr big eps old2New newNb a in Ok (done ++ [Some r]) | _ => Ok (done ++ [Some a]) end
    end) (fd_arrs f) [] in
  Ok (FD (fd_disc f) (fd_mesh f) arrs).
(** MEDCouplingFieldDouble.cxx 438-450; std::max_element of an empty range is read. *)
Definition fieldRenumberNodes (big eps : Q) (f : field Q) (old2New : list Z) : res (field Q) :=
  let* nbOfNodes := getNumberOfNodes (fd_mesh f) in
  ub_if zlen old2New <? nbOfNodes >>>
  match take (Z.to_nat nbOfNodes) old2New with
  | [] => UB
  | x :: r =>
    let newNb := foldl Z.max x r + 1 in
    let* f := renumberNodesWithoutMesh big eps f old2New newNb in
    let* m := renumberNodes (fd_mesh f) old2New newNb in
    Ok (FD (fd_disc f) m (fd_arrs f))
  end.

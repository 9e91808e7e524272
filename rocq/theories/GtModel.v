(** Unstructured meshes with cells of a single geometric type: MEDCoupling1GTUMesh.cxx and MEDCoupling1GTUMesh.txx.
    [S_...] are the methods of MEDCoupling1SGTUMesh (all the cells have the same number of nodes, there is no index),
    [D_...] those of MEDCoupling1DGTUMesh (polygons, polyhedra: nodal connectivity and its index, -1 between the faces). *)
From stdpp Require Import gmap.
From Coq Require Import QArith.
From Verif Require Import CellModel Base DataArray StdModel SearchModel SlicesModel RenumModel SetsModel IndexModel SkyModel PartModel CellTable GlModel UmModel MgModel.
Local Open Scope Z_scope.

(** MEDCoupling1GTUMesh.hxx: the model of the cells, the coordinates, the nodal connectivity (and its index).
    Simplifications: as for [umesh], the arrays, when set, are allocated with one component without information on it;
    coordinates are rationals; names, units and times are left out; _cm is never null (it is when the mesh is built with New() for CORBA). *)
Record sgt := SG { sg_cm : cm; sg_coords : option (da Q); sg_conn : option (list Z) }.
Record dgt := DG { dg_cm : cm; dg_coords : option (da Q); dg_conn : option (list Z); dg_connI : option (list Z) }.

(** The double loop over the nodes of the cells, written in each method: [lo i] and [hi i] bound the nodes of cell [i]. *)
Definition nodesIn {St} (conn : list Z) (lo hi : Z -> res Z) (nbOfCells : Z) (body : Z -> Z -> St -> res St) (s : St) : res St :=
  forZ 0 nbOfCells (fun i s =>
    let* a := lo i in let* b := hi i in
    forZ a b (fun j s => let* v := rd conn j in body i v s) s) s.
(** The bounds of a pointer moved by [k] at each cell. *)
Definition sLo (k i : Z) : res Z := Ok (i * k).
Definition sHi (k i : Z) : res Z := Ok ((i + 1) * k).
(** conni[i] and conni[i+1]; with a test that throws when the size is negative. *)
Definition dLo (connI : list Z) (i : Z) : res Z := rd connI i.
Definition dHi (connI : list Z) (i : Z) : res Z := rd connI (i + 1).
Definition dHiChecked (connI : list Z) (i : Z) : res Z := let* a := rd connI i in let* b := rd connI (i + 1) in throw_if (b <? a) >>> Ok b.
Definition nodesOfArr (d : option (da Q)) : res Z := match d with Some d => Ok (da_nt d) | None => Throw end.

(** * Static types *)

(** MEDCoupling1GTUMesh.cxx 633-650. *)
Definition S_New (type : Z) : res sgt := let* c := GetCellModel type in throw_if cm_dyn c >>> Ok (SG c None None).
(** 907-912. *)
Definition S_getNumberOfNodesPerCell (m : sgt) : res Z := throw_if cm_dyn (sg_cm m) >>> Ok (cm_nbpts (sg_cm m)).
(** 498-512. *)
Definition S_getNodalConnectivityLength (m : sgt) : res Z := match sg_conn m with Some c => Ok (zlen c) | None => Throw end.
(** 884-899; the remainder by zero (no type has no node) is undefined. *)
Definition S_getNumberOfCells (m : sgt) : res Z :=
  let* n := S_getNodalConnectivityLength m in
  let* k := S_getNumberOfNodesPerCell m in
  ub_if (k =? 0) >>> throw_if negb (Z.rem n k =? 0) >>> Ok (Z.quot n k).
(** 826-843; use of the array after the check. *)
Definition S_checkConsistencyOfConnectivity {A} (m : sgt) (k : list Z -> res A) : res A := match sg_conn m with Some c => k c | None => Throw end.
(** Use of the connectivity without a check: a null pointer is undefined. *)
Definition S_unchecked {A} (m : sgt) (k : list Z -> res A) : res A := match sg_conn m with Some c => k c | None => UB end.
(** 1767-1772. *)
Definition S_checkFullyDefined {A} (m : sgt) (k : da Q -> list Z -> res A) : res A :=
  match sg_coords m, sg_conn m with Some d, Some c => k d c | _, _ => Throw end.
(** 846-882; MEDCouplingPointSet::checkConsistencyLight throws without coordinates. *)
Definition S_checkConsistency (m : sgt) : res unit :=
  match sg_coords m with
  | None => Throw
  | Some d =>
    S_checkConsistencyOfConnectivity m (fun c1 =>
    let nbOfTuples := zlen c1 in
    let k := cm_nbpts (sg_cm m) in
    ub_if (k =? 0) >>> throw_if negb (Z.rem nbOfTuples k =? 0) >>>
    nodesIn c1 (sLo k) (sHi k) (Z.quot nbOfTuples k) (fun _ v s => throw_if (v <? 0) || (da_nt d <=? v) >>> Ok s) tt)
  end.
(** 951-965: the id is not tested against zero; std::copy to the vector of the caller. *)
Definition S_getNodeIdsOfCell (m : sgt) (cellId : Z) : res (list Z) :=
  let* sz := S_getNumberOfNodesPerCell m in
  let* n := S_getNumberOfCells m in
  throw_if (n <=? cellId) >>>
  S_unchecked m (fun conn => forZ (cellId * sz) ((cellId + 1) * sz) (fun j l => let* v := rd conn j in Ok (l ++ [v])) []).
(** 930-948: a std::set per cell. *)
Definition S_computeEffectiveNbOfNodesPerCell (m : sgt) : res (list (option Z)) :=
  throw_if cm_dyn (sg_cm m) >>>
  let* nbCells := S_getNumberOfCells m in
  let* ret := alloc Z nbCells 1 in
  let* k := S_getNumberOfNodesPerCell m in
  S_unchecked m (fun conn =>
  forZ 0 nbCells (fun i ret =>
    let* s := forZ (i * k) ((i + 1) * k) (fun j s => let* v := rd conn j in Ok (s ++ [v])) [] in
    wrc ret i (zlen (remove_dups s))) ret).

(** 653-705: from a mesh of the general class; copyTinyInfoFrom, whose exceptions are caught, copies strings. *)
Definition S_NewFrom (m : umesh) : res sgt :=
  match um_types m with
  | [geoType] =>
    let* ret := S_New geoType in
    let* nbCells := getNumberOfCells m in
    let* k := S_getNumberOfNodesPerCell ret in
    let* conn := alloc Z (nbCells * k) 1 in
    unchecked m (fun cin ciin =>
    let* (conn, _) := forZ 0 nbCells (fun i '(conn, c) =>
      let* a := rd ciin i in
      let* t := rd cin a in
      if t =? geoType then
        (let* b := rd ciin (i + 1) in
         if b - a =? k + 1 then (let* conn := copyc cin (a + 1) b conn c in Ok (conn, c + (b - (a + 1)))) else Throw)
      else Throw) (conn, 0) in
    let* conn := initialised conn in
    Ok (SG (sg_cm ret) (um_coords m) (Some conn)))
  | _ => Throw
  end.
(** 1186-1214. *)
Definition S_buildUnstructured (m : sgt) : res umesh :=
  S_unchecked m (fun nodalConn =>
  let* nbCells := S_getNumberOfCells m in
  let* k := S_getNumberOfNodesPerCell m in
  let geoType := cm_type (sg_cm m) in
  let* c := alloc Z (nbCells * (k + 1)) 1 in
  let* (c, _) := forZ 0 nbCells (fun i '(c, p) =>
    let* c := wrc c p geoType in
    let* c := copyc nodalConn (i * k) ((i + 1) * k) c (p + 1) in
    Ok (c, p + 1 + k)) (c, 0) in
  let* cI := Range 0 ((nbCells + 1) * (k + 1)) (k + 1) in
  let* c := initialised c in
  let* cI := initialised cI in
  setConnectivity (UM (cm_dim (sg_cm m)) (sg_coords m) None None []) (Some c) (Some cI) true).

(** 1577-1591: over the whole connectivity. *)
Definition S_computeNodeIdsAlg (m : sgt) (nodeIdsInUse : list bool) : res (list bool) :=
  S_unchecked m (fun conn => foldM (fun use v => if (0 <=? v) && (v <? zlen nodeIdsInUse) then wr use v true else Throw) conn nodeIdsInUse).
(** 1261-1276. *)
Definition S_computeFetchedNodeIds (m : sgt) : res (list Z) :=
  S_checkConsistencyOfConnectivity m (fun _ =>
  let* nbNodes := nodesOfArr (sg_coords m) in
  let* use := S_computeNodeIdsAlg m (replicate (Z.to_nat nbNodes) false) in
  Ok (switchedOn 0 use)).
(** 1292-1318: (traducer, nbrOfNodesInUse). *)
Definition S_getNodeIdsInUse (m : sgt) : res (list Z * Z) :=
  let* nbOfNodes := nodesOfArr (sg_coords m) in
  let* nbOfCells := S_getNumberOfCells m in
  let* k := S_getNumberOfNodesPerCell m in
  S_unchecked m (fun conn =>
  let* traducer := nodesIn conn (sLo k) (sHi k) nbOfCells (fun _ v tr => if (0 <=? v) && (v <? nbOfNodes) then wr tr v 1 else Throw) (replicate (Z.to_nat nbOfNodes) (-1)) in
  Ok (accVisit 0 traducer, zlen (List.filter (fun v => v =? 1) traducer))).
(** 1330-1336. *)
Definition S_renumberNodesWithOffsetInConn (m : sgt) (offset : Z) : res sgt :=
  let* _ := S_getNumberOfCells m in
  S_unchecked m (fun conn => Ok (SG (sg_cm m) (sg_coords m) (Some ((fun v => v + offset) <$> conn)))).
(** 1370-1376: the array has as many values as the mesh has nodes. *)
Definition S_renumberNodesInConn (m : sgt) (newNodeNumbersO2N : list Z) : res sgt :=
  let* _ := S_getNumberOfCells m in
  let* nb := nodesOfArr (sg_coords m) in
  ub_if (zlen newNodeNumbersO2N <? nb) >>>
  S_unchecked m (fun conn =>
  let* conn := transformWithIndArr conn (take (Z.to_nat nb) newNodeNumbersO2N) in
  Ok (SG (sg_cm m) (sg_coords m) (Some conn))).
(** MEDCoupling1GTUMesh.txx 26-50. *)
Definition S_renumberNodesInConnT (m : sgt) (newNodeNumbersO2N : gmap Z Z) : res sgt :=
  let* _ := S_getNumberOfCells m in
  S_unchecked m (fun conn =>
  let* conn := forZ 0 (zlen conn) (fun i c => let* v := rd c i in match newNodeNumbersO2N !! v with Some w => wr c i w | None => Throw end) conn in
  Ok (SG (sg_cm m) (sg_coords m) (Some conn))).

(** 1144-1176; getMaxValue throws on an array without value. *)
Definition hitsOf (fastFinder : list bool) (conn : list Z) (a b : Z) : res (Z * Z) :=
  forZ a b (fun j '(ref, hit) =>
    let* v := rd conn j in
    if 0 <=? v then (let* f := rd fastFinder v in Ok (ref + 1, if (f : bool) then hit + 1 else hit)) else Ok (ref, hit)) (0, 0).
Definition finderOf (conn nodeIds : list Z) : res (list bool) :=
  match conn with
  | [] => Throw
  | x :: rest =>
    let sz := Z.max (foldr Z.max x rest) 0 + 1 in
    foldM (fun ff work => if (0 <=? work) && (work <? sz) then wr ff work true else Ok ff) nodeIds (replicate (Z.to_nat sz) false)
  end.
Definition S_fillCellIdsToKeepFromNodeIds (m : sgt) (nodeIds : list Z) (fullyIn : bool) : res (list Z) :=
  let* nbOfCells := S_getNumberOfCells m in
  S_unchecked m (fun conn =>
  let* fastFinder := finderOf conn nodeIds in
  let* k := S_getNumberOfNodesPerCell m in
  forZ 0 nbOfCells (fun i kept =>
    let* (ref, nbOfHit) := hitsOf fastFinder conn (i * k) ((i + 1) * k) in
    Ok (if ((ref =? nbOfHit) && fullyIn) || (negb (nbOfHit =? 0) && negb fullyIn) then kept ++ [i] else kept)) []).
(** 1950-2002: (revNodal, revNodalIndx). *)
Definition S_getReverseNodalConnectivity (m : sgt) : res (list Z * list Z) :=
  S_checkFullyDefined m (fun coords conn =>
  let nbOfNodes := da_nt coords in
  let* nbOfCells := S_getNumberOfCells m in
  let* k := S_getNumberOfNodesPerCell m in
  let* (nb, rI) := nodesIn conn (sLo k) (sHi k) nbOfCells (fun _ v '(nb, rI) =>
    if (0 <=? v) && (v <? nbOfNodes) then (let* x := rd rI (v + 1) in let* rI := wr rI (v + 1) (x + 1) in Ok (nb + 1, rI)) else Throw)
    (0, replicate (Z.to_nat (nbOfNodes + 1)) 0) in
  let* rI := forZ 1 (nbOfNodes + 1) (fun k rI => let* x := rd rI k in let* y := rd rI (k - 1) in wr rI k (x + y)) rI in
  let* r := nodesIn conn (sLo k) (sHi k) nbOfCells (fun eltId v r =>
    let* a := rd rI v in let* b := rd rI (v + 1) in
    let* p := findFree r a b in wr r p eltId) (replicate (Z.to_nat nb) (-1)) in
  Ok (r, rI)).

(** 1106-1131; the array given has as many values as the mesh has cells. *)
Definition S_renumberCells (m : sgt) (old2New : list Z) (check : bool) : res sgt :=
  let* nbCells := S_getNumberOfCells m in
  ub_if (zlen old2New <? nbCells) >>>
  let old2New := take (Z.to_nat nbCells) old2New in
  let* o2n := if check then (let* l := CheckAndPreparePermutationRaw old2New in initialised l) else Ok old2New in
  S_unchecked m (fun conn =>
  let* n2o := invertArrayO2N2N2O (DA true 1 o2n) nbCells in
  let* newConn := alloc Z (zlen conn) 1 in
  let* sz := S_getNumberOfNodesPerCell m in
  let* newConn := forZ 0 nbCells (fun i newC => let* pos := rdc n2o i in copyc conn (pos * sz) ((pos + 1) * sz) newC (i * sz)) newConn in
  let* newConn := initialised newConn in
  Ok (SG (sg_cm m) (sg_coords m) (Some newConn))).
(** 1515-1541. *)
Definition S_buildPartOfMySelfKeepCoords (m : sgt) (ids : list Z) : res sgt :=
  let* ncell := S_getNumberOfCells m in
  S_unchecked m (fun inConn =>
  let* sz := S_getNumberOfNodesPerCell m in
  let* connRet := alloc Z (zlen ids * sz) 1 in
  let* connRet := forZ 0 (zlen ids) (fun k r =>
    let* w := rd ids k in
    if (0 <=? w) && (w <? ncell) then copyc inConn (w * sz) ((w + 1) * sz) r (k * sz) else Throw) connRet in
  let* connRet := initialised connRet in
  Ok (SG (sg_cm m) (sg_coords m) (Some connRet))).
(** 1543-1575. *)
Definition S_buildPartOfMySelfKeepCoordsSlice (m : sgt) (start stop step : Z) : res sgt :=
  let* ncell := S_getNumberOfCells m in
  let* nbOfElemsRet := GetNumberOfItemGivenBESRelative start stop step in
  S_unchecked m (fun inConn =>
  let* sz := S_getNumberOfNodesPerCell m in
  let* connRet := alloc Z (nbOfElemsRet * sz) 1 in
  let* (connRet, _) := forZ 0 nbOfElemsRet (fun k '(r, w) =>
    if (0 <=? w) && (w <? ncell) then (let* r := copyc inConn (w * sz) ((w + 1) * sz) r (k * sz) in Ok (r, w + step)) else Throw) (connRet, start) in
  let* connRet := initialised connRet in
  Ok (SG (sg_cm m) (sg_coords m) (Some connRet))).
(** 2019-2029: allocateCells. *)
Definition S_allocateCells (m : sgt) (nbOfCells : Z) : res sgt :=
  throw_if (nbOfCells <? 0) >>> let* _ := S_getNumberOfNodesPerCell m in Ok (SG (sg_cm m) (sg_coords m) (Some [])).
(** 2056-2080. *)
Definition S_insertNextCell (m : sgt) (nodes : list Z) : res sgt :=
  let* ref := S_getNumberOfNodesPerCell m in
  if zlen nodes =? ref then match sg_conn m with Some c => Ok (SG (sg_cm m) (sg_coords m) (Some (c ++ nodes))) | None => Throw end else Throw.

(** 1593-1617 and 4620-4656: missing arrays replaced by empty ones. *)
Definition S_buildSetInstanceFromThis (m : sgt) (spaceDim : Z) : sgt :=
  SG (sg_cm m) (Some (default (DA true spaceDim []) (sg_coords m))) (Some (default [] (sg_conn m))).
(** 1476-1513.  The models of the cells are compared by address: one address per type. *)
Definition S_Merge1SGTUMeshesLL (a : list sgt) : res sgt :=
  match a with
  | [] => Throw
  | m0 :: rest =>
    let* n0 := S_getNumberOfCells m0 in
    let c := sg_cm m0 in
    let* k := S_getNumberOfNodesPerCell m0 in
    let* nbOfCells := foldM (fun n m => throw_if negb (cm_type c =? cm_type (sg_cm m)) >>> let* n' := S_getNumberOfCells m in Ok (n + n')) rest n0 in
    let* pts := MergeNodesArray ((fun m => UM 0 (sg_coords m) None None []) <$> a) in
    let* pts := written pts in
    let* conn := alloc Z (nbOfCells * k) 1 in
    let* (conn, _, _) := foldM (fun '(conn, p, offset) m =>
      let* n := S_getNodalConnectivityLength m in
      S_unchecked m (fun curC =>
      let* conn := copyc ((fun v => v + offset) <$> curC) 0 n conn p in
      let* nb := nodesOfArr (sg_coords m) in
      Ok (conn, p + n, offset + nb))) a (conn, 0, 0) in
    let* conn := initialised conn in
    Ok (SG c (Some pts) (Some conn))
  end.
(** 1388-1430: null items are left out. *)
Definition firstSpaceDim (l : list (option (da Q))) : res Z :=
  match omap id l with d :: _ => Ok (da_nc d) | [] => Throw end.
Definition S_Merge1SGTUMeshes (a : list sgt) : res sgt :=
  match a with
  | [] => S_Merge1SGTUMeshesLL a
  | m0 :: _ =>
    throw_if negb (forallb (fun m => cm_type (sg_cm m) =? cm_type (sg_cm m0)) a) >>>
    let* spaceDim := firstSpaceDim (sg_coords <$> a) in
    S_Merge1SGTUMeshesLL ((fun m => S_buildSetInstanceFromThis m spaceDim) <$> a)
  end.

(** * Dynamic types *)

(** 2823-2840. *)
Definition D_New (type : Z) : res dgt := let* c := GetCellModel type in throw_if negb (cm_dyn c) >>> Ok (DG c None None None).
(** 3046-3114: the checks of the first and last values of the index; front() and back() of a non empty array. *)
Definition D_checkConsistencyOfConnectivity {A} (m : dgt) (k : list Z -> list Z -> res A) : res A :=
  match dg_conn m, dg_connI m with
  | Some c, Some ci =>
    throw_if (zlen ci <? 1) >>>
    let sz2 := zlen c in
    let* f := rd ci 0 in
    let* ll := rd ci (zlen ci - 1) in
    throw_if (f <? 0) || ((0 <? sz2) && (sz2 <=? f)) >>>
    throw_if (ll <? 0) || (sz2 <? ll) >>>
    throw_if (ll <? f) >>>
    throw_if (sz2 <? ll) >>>
    k c ci
  | _, _ => Throw
  end.
(** 3116-3126. *)
Definition D_checkConsistencyLight {A} (m : dgt) (k : da Q -> list Z -> list Z -> res A) : res A :=
  match dg_coords m with None => Throw | Some d => D_checkConsistencyOfConnectivity m (k d) end.
(** 3128-3156. *)
Definition D_checkConsistency {A} (m : dgt) (k : res A) : res A :=
  D_checkConsistencyLight m (fun d c1 c2 =>
  let* mono := isMonotonic true (vec c2) in
  throw_if negb mono >>>
  let* _ := foldM (fun s v => if v =? -1 then Ok s else throw_if (v <? 0) || (da_nt d <=? v) >>> Ok s) c1 tt in
  k).
(** 3158-3163. *)
Definition D_getNumberOfCells (m : dgt) : res Z := D_checkConsistencyOfConnectivity m (fun _ ci => Ok (zlen ci - 1)).
(** Use of the arrays, not null after getNumberOfCells. *)
Definition D_unchecked {A} (m : dgt) (k : list Z -> list Z -> res A) : res A :=
  match dg_conn m, dg_connI m with Some c, Some ci => k c ci | _, _ => UB end.
(** checkMonotonic. *)
Definition checkMonotonic {A} (l : list Z) (k : res A) : res A := let* b := isMonotonic true (vec l) in throw_if negb b >>> k.
(** std::count of -1 on a part. *)
Definition countSep (conn : list Z) (a b : Z) : res Z :=
  ub_if (b <? a) >>> forZ a b (fun j n => let* v := rd conn j in Ok (if v =? -1 then n + 1 else n)) 0.
(** 3174-3192. *)
Definition D_computeNbOfNodesPerCell (m : dgt) : res (list (option Z)) :=
  D_checkConsistencyLight m (fun _ c ci =>
  checkMonotonic ci (
  if negb (cm_type (dg_cm m) =? NORM_POLYHED) then deltaShiftIndex (vec ci)
  else
    let nbOfCells := zlen ci - 1 in
    let* ret := alloc Z nbOfCells 1 in
    forZ 0 nbOfCells (fun i ret =>
      let* a := rd ci i in let* b := rd ci (i + 1) in
      let* n := countSep c a b in wrc ret i (b - a - n)) ret)).
(** 3200-3223. *)
Definition D_computeNbOfFacesPerCell (m : dgt) : res (list (option Z)) :=
  D_checkConsistencyLight m (fun _ c ci =>
  checkMonotonic ci (
  if negb (cm_type (dg_cm m) =? NORM_POLYHED) && negb (cm_type (dg_cm m) =? NORM_QPOLYG) then deltaShiftIndex (vec ci)
  else if cm_type (dg_cm m) =? NORM_QPOLYG then
    (let* ret := deltaShiftIndex (vec ci) in let* l := initialised ret in Ok (Some <$> ((fun v => Z.quot v 2) <$> l)))
  else
    let nbOfCells := zlen ci - 1 in
    let* ret := alloc Z nbOfCells 1 in
    forZ 0 nbOfCells (fun i ret =>
      let* a := rd ci i in let* b := rd ci (i + 1) in
      let* n := countSep c a b in wrc ret i (n + 1)) ret)).
(** 3233-3259: a std::set per cell, from which -1 is erased for the polyhedra. *)
Definition D_computeEffectiveNbOfNodesPerCell (m : dgt) : res (list (option Z)) :=
  D_checkConsistencyLight m (fun _ c ci =>
  checkMonotonic ci (
  let nbOfCells := zlen ci - 1 in
  let* ret := alloc Z nbOfCells 1 in
  forZ 0 nbOfCells (fun i ret =>
    let* a := rd ci i in let* b := rd ci (i + 1) in
    let* s := forZ a b (fun j s => let* v := rd c j in Ok (s ++ [v])) [] in
    let s := remove_dups s in
    wrc ret i (zlen (if cm_type (dg_cm m) =? NORM_POLYHED then List.filter (fun v => negb (v =? -1)) s else s))) ret)).
(** 3261-3283: the id is not tested against zero. *)
Definition D_getNodeIdsOfCell (m : dgt) (cellId : Z) : res (list Z) :=
  let* n := D_getNumberOfCells m in
  throw_if (n <=? cellId) >>>
  D_unchecked m (fun c ci =>
  let* a := rd ci cellId in let* b := rd ci (cellId + 1) in
  throw_if (b - a <? 0) >>>
  forZ a b (fun j l => let* v := rd c j in Ok (l ++ [v])) []).
(** 3285-3303. *)
Definition D_getNumberOfNodesInCell (m : dgt) (cellId : Z) : res Z :=
  let* n := D_getNumberOfCells m in
  throw_if negb ((0 <=? cellId) && (cellId <? n)) >>>
  D_unchecked m (fun c ci =>
  let* a := rd ci cellId in let* b := rd ci (cellId + 1) in
  let* s := countSep c a b in Ok (b - a - s)).

(** 4868-4916. *)
Definition D_NewFrom (m : umesh) : res dgt :=
  match um_types m with
  | [geoType] =>
    let* ret := D_New geoType in
    let* nbCells := getNumberOfCells m in
    unchecked m (fun cin ciin =>
    let* len := rd ciin (zlen ciin - 1) in
    let* conn := alloc Z (len - nbCells) 1 in
    let* connI := alloc Z (nbCells + 1) 1 in
    let* connI := wrc connI 0 0 in
    let* (conn, _, connI) := forZ 0 nbCells (fun i '(conn, c, connI) =>
      let* a := rd ciin i in
      let* t := rd cin a in
      if t =? geoType then
        (let* b := rd ciin (i + 1) in
         if 1 <=? b - a then
           (let* conn := copyc cin (a + 1) b conn c in
            let* p := rdc connI i in
            let* connI := wrc connI (i + 1) (p + b - a - 1) in
            Ok (conn, c + (b - (a + 1)), connI))
         else Throw)
      else Throw) (conn, 0, connI) in
    let* conn := initialised conn in
    let* connI := initialised connI in
    Ok (DG (dg_cm ret) (um_coords m) (Some conn) (Some connI)))
  | _ => Throw
  end.
(** 3549-3587. *)
Definition D_buildUnstructured (m : dgt) : res umesh :=
  D_unchecked m (fun nodalConn nodalConnI =>
  let* nbCells := D_getNumberOfCells m in
  let geoType := cm_type (dg_cm m) in
  let* c := alloc Z (nbCells + zlen nodalConn) 1 in
  let* cI := alloc Z (nbCells + 1) 1 in
  let* cI := wrc cI 0 0 in
  let* (c, _, cI) := forZ 0 nbCells (fun i '(c, p, cI) =>
    let* b := rd nodalConnI (i + 1) in let* a := rd nodalConnI i in
    let sz := b - a in
    if 0 <=? sz then
      (let* c := wrc c p geoType in
       let* c := copyc nodalConn a b c (p + 1) in
       let* q := rdc cI i in
       let* cI := wrc cI (i + 1) (q + sz + 1) in
       Ok (c, p + 1 + sz, cI))
    else Throw) (c, 0, cI) in
  let* c := initialised c in
  let* cI := initialised cI in
  setConnectivity (UM (cm_dim (dg_cm m)) (dg_coords m) None None []) (Some c) (Some cI) true).

(** 3700-3718: over the whole connectivity. *)
Definition D_computeNodeIdsAlg (m : dgt) (nodeIdsInUse : list bool) : res (list bool) :=
  D_checkConsistency m (
  D_unchecked m (fun conn _ =>
  foldM (fun use v => if (0 <=? v) && (v <? zlen nodeIdsInUse) then wr use v true else if negb (v =? -1) then Throw else Ok use) conn nodeIdsInUse)).
(** 3961-3976. *)
Definition D_computeFetchedNodeIds (m : dgt) : res (list Z) :=
  D_checkConsistency m (
  let* nbNodes := nodesOfArr (dg_coords m) in
  let* use := D_computeNodeIdsAlg m (replicate (Z.to_nat nbNodes) false) in
  Ok (switchedOn 0 use)).
(** 3992-4026. *)
Definition D_getNodeIdsInUse (m : dgt) : res (list Z * Z) :=
  let* nbOfNodes := nodesOfArr (dg_coords m) in
  let* nbOfCells := D_getNumberOfCells m in
  D_unchecked m (fun conn connI =>
  let* traducer := nodesIn conn (dLo connI) (dHi connI) nbOfCells (fun _ v tr =>
    if v =? -1 then Ok tr else if (0 <=? v) && (v <? nbOfNodes) then wr tr v 1 else Throw) (replicate (Z.to_nat nbOfNodes) (-1)) in
  Ok (accVisit 0 traducer, zlen (List.filter (fun v => v =? 1) traducer))).
(** The loop over the whole connectivity that rewrites the nodes in place but the separators. *)
Definition rewriteAll (f : Z -> res Z) (conn : list Z) : res (list Z) :=
  forZ 0 (zlen conn) (fun i c => let* v := rd c i in if v =? -1 then Ok c else let* w := f v in wr c i w) conn.
(** 4037-4055. *)
Definition D_renumberNodesWithOffsetInConn (m : dgt) (offset : Z) : res dgt :=
  let* _ := D_getNumberOfCells m in
  D_unchecked m (fun conn connI =>
  let* conn := rewriteAll (fun v => Ok (v + offset)) conn in
  Ok (DG (dg_cm m) (dg_coords m) (Some conn) (Some connI))).
(** 4089-4112. *)
Definition D_renumberNodesInConn (m : dgt) (newNodeNumbersO2N : list Z) : res dgt :=
  let* _ := D_getNumberOfCells m in
  let* nbElemsIn := nodesOfArr (dg_coords m) in
  D_unchecked m (fun conn connI =>
  let* conn := rewriteAll (fun v => if (0 <=? v) && (v <? nbElemsIn) then rd newNodeNumbersO2N v else Throw) conn in
  Ok (DG (dg_cm m) (dg_coords m) (Some conn) (Some connI))).
(** MEDCoupling1GTUMesh.txx 52-87. *)
Definition D_renumberNodesInConnT (m : dgt) (newNodeNumbersO2N : gmap Z Z) : res dgt :=
  let* _ := D_getNumberOfCells m in
  D_unchecked m (fun conn connI =>
  let* conn := rewriteAll (fun v => if 0 <=? v then match newNodeNumbersO2N !! v with Some w => Ok w | None => Throw end else Throw) conn in
  Ok (DG (dg_cm m) (dg_coords m) (Some conn) (Some connI))).
(** 4123-4164. *)
Definition D_fillCellIdsToKeepFromNodeIds (m : dgt) (nodeIds : list Z) (fullyIn : bool) : res (list Z) :=
  let* nbOfCells := D_getNumberOfCells m in
  D_unchecked m (fun conn connI =>
  let* fastFinder := finderOf conn nodeIds in
  forZ 0 nbOfCells (fun i kept =>
    let* a := rd connI i in let* b := rd connI (i + 1) in
    throw_if (b - a <? 0) >>>
    let* (ref, nbOfHit) := hitsOf fastFinder conn a b in
    Ok (if ((ref =? nbOfHit) && fullyIn) || (negb (nbOfHit =? 0) && negb fullyIn) then kept ++ [i] else kept)) []).
(** 3719-3788. *)
Definition D_getReverseNodalConnectivity (m : dgt) : res (list Z * list Z) :=
  match dg_coords m, dg_conn m, dg_connI m with
  | Some coords, Some conn, Some connI =>
    let nbOfNodes := da_nt coords in
    let* nbOfCells := D_getNumberOfCells m in
    let* (nb, rI) := nodesIn conn (dLo connI) (dHiChecked connI) nbOfCells (fun _ v '(nb, rI) =>
      if v =? -1 then Ok (nb, rI) else
      if (0 <=? v) && (v <? nbOfNodes) then (let* x := rd rI (v + 1) in let* rI := wr rI (v + 1) (x + 1) in Ok (nb + 1, rI)) else Throw)
      (0, replicate (Z.to_nat (nbOfNodes + 1)) 0) in
    let* rI := forZ 1 (nbOfNodes + 1) (fun k rI => let* x := rd rI k in let* y := rd rI (k - 1) in wr rI k (x + y)) rI in
    let* r := nodesIn conn (dLo connI) (dHi connI) nbOfCells (fun eltId v r =>
      if negb (v =? -1) then
        (let* a := rd rI v in let* b := rd rI (v + 1) in
         let* p := findFree r a b in wr r p eltId)
      else Ok r) (replicate (Z.to_nat nb) (-1)) in
    Ok (r, rI)
  | _, _, _ => Throw
  end.

(** 3496-3538. *)
Definition D_renumberCells (m : dgt) (old2New : list Z) (check : bool) : res dgt :=
  let* nbCells := D_getNumberOfCells m in
  ub_if (zlen old2New <? nbCells) >>>
  let old2New := take (Z.to_nat nbCells) old2New in
  let* o2n := if check then (let* l := CheckAndPreparePermutationRaw old2New in initialised l) else Ok old2New in
  D_unchecked m (fun conn conni =>
  let* newConn := alloc Z (zlen conn) 1 in
  let* newConnI := alloc Z nbCells 1 in
  let* newConnI := forZ 0 nbCells (fun i newCI =>
    let* newPos := rd o2n i in
    let* b := rd conni (i + 1) in let* a := rd conni i in
    let sz := b - a in
    if 0 <=? sz then wrc newCI newPos sz else Throw) newConnI in
  let* newConnI := initialised newConnI in
  let* newConnI := computeOffsetsFull (vec newConnI) in
  let* newConnI := initialised newConnI in
  let* newConn := forZ 0 nbCells (fun i newC =>
    let* newp := rd o2n i in
    let* a := rd conni i in let* b := rd conni (i + 1) in
    let* q := rd newConnI newp in
    copyc conn a b newC q) newConn in
  let* newConn := initialised newConn in
  Ok (DG (dg_cm m) (dg_coords m) (Some newConn) (Some newConnI))).
(** 3671-3682. *)
Definition D_buildPartOfMySelfKeepCoords (m : dgt) (ids : list Z) : res dgt :=
  D_checkConsistencyLight m (fun d conn connI =>
  let* (c, ci) := ExtractFromIndexedArrays ids (Some (vec conn)) (Some (vec connI)) in
  let* c := initialised c in
  let* ci := initialised ci in
  Ok (DG (dg_cm m) (dg_coords m) (Some c) (Some ci))).
(** 3684-3695. *)
Definition D_buildPartOfMySelfKeepCoordsSlice (m : dgt) (start stop step : Z) : res dgt :=
  D_checkConsistencyLight m (fun d conn connI =>
  let* (c, ci) := ExtractFromIndexedArraysSlice start stop step (Some (vec conn)) (Some (vec connI)) in
  let* c := initialised c in
  let* ci := initialised ci in
  Ok (DG (dg_cm m) (dg_coords m) (Some c) (Some ci))).
(** 4166-4180. *)
Definition D_allocateCells (m : dgt) (nbOfCells : Z) : res dgt := throw_if (nbOfCells <? 0) >>> Ok (DG (dg_cm m) (dg_coords m) (Some []) (Some [0])).
(** 4193-4220; back() throws on an empty array. *)
Definition D_insertNextCell (m : dgt) (nodes : list Z) : res dgt :=
  match dg_conn m, dg_connI m with
  | Some c, Some c2 =>
    throw_if (zlen c2 =? 0) >>>
    let* pos := rd c2 (zlen c2 - 1) in
    if pos =? zlen c then Ok (DG (dg_cm m) (dg_coords m) (Some (c ++ nodes)) (Some (c2 ++ [pos + zlen nodes]))) else Throw
  | _, _ => Throw
  end.
(** 4467-4472. *)
Definition D_isPacked (m : dgt) : res bool :=
  D_checkConsistencyLight m (fun _ c ci => let* f := rd ci 0 in let* b := rd ci (zlen ci - 1) in Ok ((f =? 0) && (b =? zlen c))).
(** 4435-4457 and 4399-4411: retrievePackedNodalConnectivity, copyWithNodalConnectivityPacked; the boolean tells that the arrays are those of the mesh.
    selectByTupleIdSafeSlice throws on a range outside the array. *)
Definition D_retrievePackedNodalConnectivity (m : dgt) : res (list Z * list Z * bool) :=
  let* packed := D_isPacked m in
  D_unchecked m (fun c ci =>
  if packed : bool then Ok (c, ci, true) else
  let* bg := rd ci 0 in let* e := rd ci (zlen ci - 1) in
  throw_if (bg <? 0) || (zlen c <? e) || (e <? bg) >>>
  Ok (take (Z.to_nat (e - bg)) (drop (Z.to_nat bg) c), (fun v => 1 * v + - bg) <$> ci, false)).
Definition D_copyWithNodalConnectivityPacked (m : dgt) : res (dgt * bool) :=
  let* (nc, nci, b) := D_retrievePackedNodalConnectivity m in
  Ok (DG (dg_cm m) (dg_coords m) (Some nc) (Some nci), b).
(** 4814-4866. *)
Definition AggregateNodalConnAndShiftNodeIds (nodalConns : list (list Z)) (offsets : list Z) : res (list (option Z)) :=
  throw_if negb (zlen nodalConns =? zlen offsets) >>>
  throw_if (zlen nodalConns =? 0) >>>
  let nbOfTuples := foldr (fun l n => zlen l + n) 0 nodalConns in
  let* ret := alloc Z nbOfTuples 1 in
  let* (ret, _, _) := foldM (fun '(ret, p, i) c =>
    let* offset := rd offsets i in
    let* ret := forZ 0 (zlen c) (fun j r => let* v := rd c j in wrc r (p + j) (if negb (v =? -1) then v + offset else -1)) ret in
    Ok (ret, p + zlen c, i + 1)) nodalConns (ret, 0, 0) in
  Ok ret.
(** 4619-4656. *)
Definition D_buildSetInstanceFromThis (m : dgt) (spaceDim : Z) : dgt :=
  DG (dg_cm m) (Some (default (DA true spaceDim []) (dg_coords m))) (Some (default [] (dg_conn m))) (Some (default [0] (dg_connI m))).
(** 4579-4617. *)
Definition D_Merge1DGTUMeshesLL (a : list dgt) : res dgt :=
  match a with
  | [] => Throw
  | m0 :: rest =>
    let c := dg_cm m0 in
    let* _ := D_getNumberOfCells m0 in
    let* (o0, _) := D_copyWithNodalConnectivityPacked m0 in
    let* nb0 := nodesOfArr (dg_coords m0) in
    let* (objs, offs, _, _) := foldM (fun '(objs, offs, lastOff, prevNbOfNodes) m =>
      throw_if negb (cm_type c =? cm_type (dg_cm m)) >>>
      let* (o, _) := D_copyWithNodalConnectivityPacked m in
      let* _ := D_getNumberOfCells m in
      let off := lastOff + prevNbOfNodes in
      let* nb := nodesOfArr (dg_coords m) in
      Ok (objs ++ [o], offs ++ [off], off, nb)) rest ([o0], [0], 0, nb0) in
    let* pts := MergeNodesArray ((fun m => UM 0 (dg_coords m) None None []) <$> a) in
    let* pts := written pts in
    let* conn := AggregateNodalConnAndShiftNodeIds (omap dg_conn objs) offs in
    let* conn := initialised conn in
    let* connI := AggregateIndexes ((fun o => vec <$> dg_connI o) <$> objs) in
    let* connI := initialised connI in
    Ok (DG c (Some pts) (Some conn) (Some connI))
  end.
(** 4483-4526. *)
Definition D_Merge1DGTUMeshes (a : list dgt) : res dgt :=
  match a with
  | [] => D_Merge1DGTUMeshesLL a
  | m0 :: _ =>
    throw_if negb (forallb (fun m => cm_type (dg_cm m) =? cm_type (dg_cm m0)) a) >>>
    let* spaceDim := firstSpaceDim (dg_coords <$> a) in
    D_Merge1DGTUMeshesLL ((fun m => D_buildSetInstanceFromThis m spaceDim) <$> a)
  end.
(** 4748-4779: an empty part and back() on an empty vector are undefined.  [b] is never updated: only the first part is marked as taken. *)
Fixpoint findPart (parts : list (list Z)) (b : list bool) (ref : Z) : res (option (list Z)) :=
  match parts, b with
  | p :: ps, f :: bs =>
    if f then (match p with [] => UB | x :: _ => if x =? ref then Ok (Some p) else findPart ps bs ref end) else findPart ps bs ref
  | [], _ => Ok None
  | _, [] => UB
  end.
Definition BuildAPolygonFromParts (parts : list (list Z)) : res (list Z) :=
  match parts with
  | [] => Ok []
  | p0 :: rest =>
    let sz := zlen parts in
    let b := false :: replicate (length rest) true in
    let* ref := match last p0 with Some v => Ok v | None => UB end in
    let* (ret, _, _) := whileM (Datatypes.S (length parts)) (fun '(_, _, nbh) => Ok (nbh <? sz))
      (fun '(ret, ref, nbh) =>
        let* f := findPart parts b ref in
        match f with
        | None => Throw
        | Some p => let ret := ret ++ tail p in let* ref := match last ret with Some v => Ok v | None => UB end in Ok (ret, ref, nbh + 1)
        end) (p0, ref, 1) in
    match ret, last ret with x :: _, Some y => Ok (if y =? x then take (length ret - 1) ret else ret) | _, _ => UB end
  end.

(** * Both *)

(** 61-79: MEDCoupling1GTUMesh::New. *)
Definition G_NewFrom (m : umesh) : res (sgt + dgt) :=
  match um_types m with
  | [t] => let* c := GetCellModel t in if negb (cm_dyn c) then (let* s := S_NewFrom m in Ok (inl s)) else (let* d := D_NewFrom m in Ok (inr d))
  | _ => Throw
  end.
(** 529-606.  Simplified: the arrays of coordinates are shared when they are equal; the object is one of the two classes. *)
Definition G_cm (g : sgt + dgt) : cm := match g with inl s => sg_cm s | inr d => dg_cm d end.
Definition G_coords (g : sgt + dgt) : option (da Q) := match g with inl s => sg_coords s | inr d => dg_coords d end.
Definition G_conn (g : sgt + dgt) : option (list Z) := match g with inl s => sg_conn s | inr d => dg_conn d end.
Definition G_getNumberOfCells (g : sgt + dgt) : res Z := match g with inl s => S_getNumberOfCells s | inr d => D_getNumberOfCells d end.
Definition AggregateOnSameCoordsToUMesh (same : option (da Q) -> option (da Q) -> bool) (parts : list (sgt + dgt)) : res umesh :=
  match parts with
  | [] => Throw
  | first :: _ =>
    let coords := G_coords first in
    let meshDim := cm_dim (G_cm first) in
    let* (nbOfCells, connSize) := foldM (fun '(nbOfCells, connSize) g =>
      throw_if negb (cm_dim (G_cm g) =? meshDim) >>>
      throw_if negb (same (G_coords g) coords) >>>
      let* n := G_getNumberOfCells g in
      match G_conn g with None => Throw | Some c => Ok (nbOfCells + n, connSize + zlen c) end) parts (0, 0) in
    let* connI := alloc Z (nbOfCells + 1) 1 in
    let* conn := alloc Z (connSize + nbOfCells) 1 in
    let* connI := wrc connI 0 0 in
    let* (conn, _, connI, _) := foldM (fun '(conn, c, connI, ci) g =>
      let* curNbCells := G_getNumberOfCells g in
      let geoType := cm_type (G_cm g) in
      match G_conn g with
      | None => UB
      | Some cin =>
        let body lo hi := forZ 0 curNbCells (fun i '(conn, c, connI, ci) =>
            let* conn := wrc conn c geoType in
            let* a := lo i in let* b := hi i in
            let* conn := copyc cin a b conn (c + 1) in
            let* q := rdc connI ci in
            let* connI := wrc connI (ci + 1) (q + (b - a) + 1) in
            Ok (conn, c + 1 + (b - a), connI, ci + 1)) (conn, c, connI, ci) in
        match g with
        | inl s => let* k := S_getNumberOfNodesPerCell s in body (sLo k) (sHi k)
        | inr d => match dg_connI d with None => UB | Some ciin => body (dLo ciin) (dHi ciin) end
        end
      end) parts (conn, 0, connI, 0) in
    let* conn := initialised conn in
    let* connI := initialised connI in
    setConnectivity (UM meshDim coords None None []) (Some conn) (Some connI) true
  end.

(** Unstructured meshes: zones of cells reached from neighbour to neighbour, neighbours of nodes.
    MEDCouplingUMesh_internal.cxx, MEDCouplingUMesh.cxx. *)
From Coq Require Import QArith.
From Verif Require Import CellModel Base DataArray StdModel RenumModel IndexModel SearchModel SkyModel PartModel CellTable UmModel UcModel DsModel.
Local Open Scope Z_scope.

(** * Zones *)

(** MEDCouplingUMesh_internal.cxx 1908-1924: the marks of the seeds. *)
Definition markSeeds (nbOfTuples : Z) (seeds : list Z) (fetched fetched2 : list bool) : res (list bool * list bool) :=
  foldM (fun '(fetched, fetched2) s =>
    throw_if negb ((0 <=? s) && (s <? nbOfTuples)) >>>
    let* fetched := wr fetched s true in let* fetched2 := wr fetched2 s true in Ok (fetched, fetched2)) seeds (fetched, fetched2).
(** MEDCouplingUMesh_internal.cxx 1934-1941: one peel.  The inner loop ends when the two pointers are equal: with a decreasing index it leaves the array. *)
Definition onePeel (arr arrI ids : list Z) (fetched fetched2 : list bool) : res (list bool * list bool * list Z) :=
  foldM (fun (s : list bool * list bool * list Z) it =>
    let* a := rd arrI it in let* b := rd arrI (it + 1) in
    ub_if (b <? a) >>>
    forZ a b (fun w (s : list bool * list bool * list Z) => let '(fetched, fetched2, other) := s in
      let* v := rd arr w in let* f := rd fetched v in
      if f then Ok (fetched, fetched2, other)
      else (let* fetched := wr fetched v true in let* fetched2 := wr fetched2 v true in Ok (fetched, fetched2, other ++ [v]))) s)
    ids (fetched, fetched2, []).
(** MEDCouplingUMesh_internal.cxx 1890-1957: (fetched, ids, nbOfDepthPeelingPerformed).  Simplified: the limit of -1, which is the largest mcIdType in the code, is no limit at all.
    The fuel is the number of marks plus 2. *)
Definition spreadAlg (fetched : list bool) (seeds arr : list Z) (arrI : da Z) (depth : Z) : res (list bool * list Z * Z) :=
  let nbOfTuples := da_nt arrI - 1 in
  throw_if (nbOfTuples <? 0) >>>
  let* (fetched, fetched2) := markSeeds nbOfTuples seeds fetched (replicate (Z.to_nat nbOfTuples) false) in
  let* (fetched, fetched2, _, nb) := whileM (S (S (length fetched)))
    (fun '(_, _, ids, nb) => Ok (negb (zlen ids =? 0) && ((depth =? -1) || (nb <? depth))))
    (fun '(fetched, fetched2, ids, nb) =>
      let* (fetched, fetched2, other) := onePeel arr (da_vals arrI) ids fetched fetched2 in Ok (fetched, fetched2, other, nb + 1))
    (fetched, fetched2, seeds, 0) in
  Ok (fetched, switchedOn 0 fetched2, nb).
(** MEDCouplingUMesh.cxx 10063-10090: (ids, nbOfDepthPeelingPerformed). *)
Definition ComputeSpreadZoneGraduallyFromSeed (seeds : list Z) (arr arrI : da Z) (depth : Z) : res (list Z * Z) :=
  let nbOfTuples := da_nt arrI - 1 in
  if nbOfTuples <=? 0 then Ok ([], 0)
  else (let* (_, ids, nb) := spreadAlg (replicate (Z.to_nat nbOfTuples) false) seeds (da_vals arr) arrI depth in Ok (ids, nb)).
(** MEDCouplingUMesh.cxx 10038-10043. *)
Definition ComputeSpreadZoneGradually (arr arrI : da Z) : res (list Z) :=
  let* (ids, _) := ComputeSpreadZoneGraduallyFromSeed [0] arr arrI (-1) in Ok ids.
(** std::find of false on a vector<bool>: the rank of the first one, the size when none. *)
Fixpoint findFalse (v : list bool) : Z := match v with [] => 0 | b :: r => if b then 1 + findFalse r else 0 end.
(** MEDCouplingUMesh.cxx 10166-10195.  The fuel is the number of cells plus 1. *)
Definition PartitionBySpreadZone (arr arrI : da Z) : res (list (list Z)) :=
  checkAllocated arr (checkAllocated arrI (
  let nbOfTuples := da_nt arrI in
  throw_if negb (da_nc arr =? 1) || negb (da_nc arrI =? 1) || (nbOfTuples <? 1) >>>
  let nbOfCellsCur := nbOfTuples - 1 in
  if nbOfCellsCur <=? 0 then Ok []
  else
    (let* (_, _, ret) := whileM (S (Z.to_nat nbOfCellsCur)) (fun '(seed, _, _) => Ok (seed <? nbOfCellsCur))
       (fun '(seed, fetched, ret) =>
         let* (fetched, ids, _) := spreadAlg fetched [seed] (da_vals arr) arrI (-1) in
         Ok (seed + findFalse (drop (Z.to_nat seed) fetched), fetched, ret ++ [ids]))
       (0, replicate (Z.to_nat nbOfCellsCur) false, []) in
     Ok ret))).
(** MEDCouplingUMesh.cxx 10157-10164. *)
Definition partitionBySpreadZone (m : umesh) : res (list (list Z)) :=
  let* (neigh, neighI) := computeNeighborsOfCells m in PartitionBySpreadZone (vec neigh) (vec neighI).

(** * Neighbours of nodes *)

(** MEDCouplingUMesh.cxx 1229-1277: (neighbors, neighborsIdx).  The place of an edge in the connectivity is 3 times its rank, whatever its type. *)
Definition computeNeighborsOfNodes (m : umesh) : res (list Z * list Z) :=
  checkFullyDefined m (fun coords _ _ =>
  let* mdim := getMeshDimension m in
  let nbNodes := da_nt coords in
  let* mesh1D :=
    (if mdim =? 3 then let* (m1, _, _, _, _) := explode3DMeshTo1D m in Ok m1
     else if mdim =? 2 then let* (m1, _, _, _, _) := buildDescendingConnectivity m in Ok m1
     else if mdim =? 1 then Ok m
     else Throw) in
  let* (rn, rni) := getReverseNodalConnectivity mesh1D in
  unchecked mesh1D (fun c1D _ =>
  let* r := forZ 0 nbNodes (fun i r =>
    let* a := rd rni i in let* b := rd rni (i + 1) in
    ub_if (b <? a) >>>
    forZ a b (fun w r =>
      let* e := rd rn w in
      let* n := rd c1D (3 * e + 1) in
      let* v := (if n =? i then rd c1D (3 * e + 2) else Ok n) in
      ub_if (zlen rn <=? zlen r) >>> Ok (r ++ [v])) r) [] in
  Ok (r, rni))).
(** MEDCouplingUMesh.cxx 1296-1341: (neighbors, neighborsIdx). *)
Definition computeEnlargedNeighborsOfNodes (m : umesh) : res (list Z * list Z) :=
  checkFullyDefined m (fun coords conn connI =>
  let nbOfNodes := da_nt coords in
  let* nbOfCells := getNumberOfCells m in
  let* st0 := forZ 0 nbOfCells (fun eltId st0 =>
    let* a := rd connI eltId in let* b := rd connI (eltId + 1) in
    let* x := range conn (a + 1) b in
    let s := List.filter (fun v => negb (v =? -1)) (set_of x) in
    foldM (fun st0 v => let* old := rd st0 v in wr st0 v (sins_all s old)) s st0) (replicate (Z.to_nat nbOfNodes) []) in
  let* idx := foldM (fun (idx : list Z) (st : list Z) =>
    let* prev := rd idx (zlen idx - 1) in
    Ok (idx ++ [if zlen st =? 0 then prev else prev + zlen st - 1])) st0 [0] in
  let* back := rd idx (zlen idx - 1) in
  throw_if (back <? 0) >>>
  let* neigh := forZ 0 (zlen st0) (fun nodeId neigh =>
    let* st := rd st0 nodeId in
    let s := List.filter (fun v => negb (v =? nodeId)) st in
    let* p := rd idx nodeId in
    copyc s 0 (zlen s) neigh p) (malloc Z back) in
  let* neigh := initialised neigh in
  Ok (neigh, idx)).

(** The users of the trees of points, MEDCouplingMemArray.cxx. Doubles are rationals; sqrt and the cubic root are the parameters [root] and [cbrt]. *)
From Coq Require Import QArith Qabs.
From Verif Require Import Base DataArray RenumModel IndexModel PartModel SkyModel TreeModel.
Local Open Scope Z_scope.

(** areIncludedInMe, MEDCouplingMemArray.cxx 1174-1195: (the boolean, tupleIds). *)
Definition areIncludedInMe (this other : da Q) (prec : Q) : res (bool * list Z) :=
  checkAllocated this (checkAllocated other (
  throw_if (negb (da_nc this =? da_nc other)) >>>
  let* a := Aggregate [Some this; Some other] in
  let* vals := initialised (da_vals a) in
  let a := DA true (da_nc a) vals in
  let* (c, cI) := findCommonTuples a prec (da_nt this) in
  let* (ids, newNbOfTuples) := ConvertIndexArrayToO2N (da_nt a) c cI in
  let* ids := initialised ids in
  let* ret1 := mySelectByTupleIdSafeSlice (vec ids) (da_nt this) (da_nt a) 1 in
  let* r := initialised (da_vals ret1) in
  Ok (newNbOfTuples =? da_nt this, r))).
(** DataArrayDouble::getDifferentValues, MEDCouplingMemArray.cxx 1494-1506. *)
Definition getDifferentValues (d : da Q) (prec : Q) (limit : Z) : res (da (option Q)) :=
  checkAllocated d (
  let* (c, cI) := findCommonTuples d prec limit in
  let* (o2n, newNbOfTuples) := ConvertIndexArrayToO2N (da_nt d) c cI in
  let* o2n := initialised o2n in
  renumberAndReduce d o2n newNbOfTuples).

(** getMinMaxPerComponent, MEDCouplingMemArray.cxx 1565-1591, in the memory [bounds]. *)
Definition getMinMaxPerComponent (d : da Q) (bounds : list (option Q)) : res (list (option Q)) :=
  checkAllocated d (
  let dim := da_nc d in
  let* bounds := forZ 0 dim (fun idim bounds => let* bounds := wrc bounds (idim * 2) DBL_MAX in wrc bounds (idim * 2 + 1) (- DBL_MAX)%Q) bounds in
  forZ 0 (da_nt d) (fun i bounds => forZ 0 dim (fun idim bounds =>
    let* x := rd (da_vals d) (i * dim + idim) in
    let* mn := rdc bounds (idim * 2) in
    let* bounds := if ltb x mn then wrc bounds (idim * 2) x else Ok bounds in
    let* mx := rdc bounds (idim * 2 + 1) in
    if ltb mx x then wrc bounds (idim * 2 + 1) x else Ok bounds) bounds) bounds).
(** numeric_limits<double>::epsilon(). *)
Definition DBL_EPSILON : Q := 1 # 4503599627370496.
(** The search of FindClosestTupleIdAlg for one point, MEDCouplingMemArray.cxx 150-168: the new distOpt, and the element ([None]: the variable is not initialised). *)
Fixpoint seek (fuel : nat) (root : Q -> Q) (pts : list Q) (dim : Z) (t : tree) (p : list Q) (distOpt : Q) : res (Q * option Z) :=
  match fuel with
  | O => Fuel
  | S f =>
    let* (ret, elem) := getClosestPoint root pts dim t p distOpt (Some (-1)) in
    if negb (Qeq_bool ret DBL_MAX) then Ok (qmax ret (1 # 10000), elem) else seek f root pts dim t p (2 * distOpt)%Q
  end.
(** FindClosestTupleIdAlg, MEDCouplingMemArray.cxx 134-169. *)
Definition FindClosestTupleIdAlg (fuel : nat) (root : Q -> Q) (pts : list Q) (dim : Z) (t : tree) (dist : Q) (pos : list Q) (nbOfTuples : Z) : res (list Z) :=
  let* (_, r) := forZ 0 nbOfTuples (fun i '(distOpt, r) =>
    let* (distOpt, elem) := seek fuel root pts dim t (drop (Z.to_nat (i * dim)) pos) distOpt in
    match elem with Some e => Ok (distOpt, r ++ [e]) | None => UB end) (qmax dist DBL_EPSILON, []) in
  Ok r.
(** findClosestTupleId, MEDCouplingMemArray.cxx 1314-1392. A division by zero gives 0 here instead of an infinite or undefined double (no tuple in this). *)
Definition findClosestTupleId (fuel : nat) (root cbrt : Q -> Q) (this other : da Q) : res (list Z) :=
  checkAllocated this (checkAllocated other (
  let nbOfCompo := da_nc this in
  throw_if (negb (nbOfCompo =? da_nc other)) >>>
  let n := inject_Z (da_nt this) in
  let* bounds := getMinMaxPerComponent this (malloc Q 6) in
  let delta (k : Z) : res Q := let* b := rdc bounds (2 * k + 1) in let* a := rdc bounds (2 * k) in Ok (Qabs (b - a)) in
  let* characSize :=
    if nbOfCompo =? 3 then let* x := delta 0 in let* y := delta 1 in let* z := delta 2 in let d := qmax (qmax x y) z in Ok (cbrt ((d * d * d) / n)%Q)
    else if nbOfCompo =? 2 then let* x := delta 0 in let* y := delta 1 in Ok (root (qmax x y / n)%Q)
    else if nbOfCompo =? 1 then let* x := delta 0 in Ok (x / n)%Q
    else Throw in
  let* t := BBTreePts (da_vals this) nbOfCompo (da_nt this) (characSize * (1 # 1000000000000))%Q in
  FindClosestTupleIdAlg fuel root (da_vals this) nbOfCompo t (inject_Z nbOfCompo * characSize * characSize)%Q (da_vals other) (da_nt other))).
(** minimalDistanceTo, MEDCouplingMemArray.cxx 1281-1304: (the distance, (thisTupleId, otherTupleId) when they are written). *)
Definition minimalDistanceTo (fuel : nat) (root cbrt : Q -> Q) (this other : da Q) : res (Q * option (Z * Z)) :=
  let* part1 := findClosestTupleId fuel root cbrt this other in
  let nbOfCompo := da_nc this in
  let* (ret, ids) := forZ 0 (da_nt other) (fun i '(ret, ids) =>
    let* e := rd part1 i in
    let* tmp := forZ 0 nbOfCompo (fun j tmp =>
      let* o := rd (da_vals other) (i * nbOfCompo + j) in let* p := rd (da_vals this) (nbOfCompo * e + j) in Ok (tmp + (o - p) * (o - p))%Q) 0%Q in
    Ok (if ltb tmp ret then (tmp, Some (e, i)) else (ret, ids))) (DBL_MAX, None) in
  Ok (root ret, ids).
(** distanceToTuple, MEDCouplingMemArray.cxx 1931-1963: (the distance, tupleId). *)
Definition distanceToTuple (root : Q -> Q) (this : da Q) (tuple : list Q) : res (Q * Z) :=
  checkAllocated this (
  throw_if (negb (da_nc this =? zlen tuple)) >>>
  throw_if (da_nt this =? 0) >>>
  let* (ret0, tupleId) := forZ 0 (da_nt this) (fun i '(ret0, tupleId) =>
    let* val := forZ 0 (da_nc this) (fun j val => let* w := rd (da_vals this) (i * da_nc this + j) in let* x := rd tuple j in Ok (val + (w - x) * (w - x))%Q) 0%Q in
    Ok (if Qle_bool ret0 val then (ret0, tupleId) else (val, i))) (DBL_MAX, -1) in
  Ok (root ret0, tupleId)).

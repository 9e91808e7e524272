(** MEDCouplingStructuredMesh.cxx: ids, positions, boxes of cells.  All line numbers are in that file. *)
From Verif Require Import Base DataArray SkyModel.

(** Conversion to a 32 bit int (the type of the literals 0 and 1 given to std::accumulate). *)
Definition wrap32 (z : Z) : Z := (z + 2147483648) mod 4294967296 - 2147483648.
(** [std::accumulate(b,e,init,op)] with [int init]: the accumulator is an int. *)
Definition accInt (op : Z -> Z -> Z) (init : Z) (l : list Z) : Z := foldl (fun a x => wrap32 (op a x)) init l.

(** Lines 199-216; [ngs] is the number of nodes along each axis. *)
Definition getMeshDimension (ngs : list Z) : res Z :=
  foldM (fun ret n => throw_if n <=? 0 >>> Ok (if 1 <? n then ret + 1 else ret)) ngs 0.
(** Lines 1658-1664. *)
Definition getCellGridStructure (ngs : list Z) : list Z := (fun n => n + -1) <$> ngs.
(** Lines 1696-1708. *)
Definition GetSplitVectFromStruct (st : list Z) : res (list Z) :=
  let spaceDim := zlen st in
  forZ 0 spaceDim (fun l r =>
    let* val := forZ 0 (spaceDim - l - 1) (fun p val => let* x := rd st p in Ok (val * x)) 1 in
    wr r (spaceDim - l - 1) val) (replicate (length st) 0).
(** Lines 1646-1656; [r] is the output buffer. *)
Definition GetPosFromId (eltId meshDim : Z) (split r : list Z) : res (list Z) :=
  let* (_, r) := forZ 0 meshDim (fun t '(work, r) =>
    let i := meshDim - 1 - t in
    let* s := rd split i in
    ub_if s =? 0 >>>
    let* r := wr r i (Z.quot work s) in Ok (Z.rem work s, r)) (eltId, r) in
  Ok r.
(** Lines 1559-1583, 1585-1592. *)
Definition getNumberOfCells (ngs : list Z) : res Z :=
  let* (ret, isCatched) := foldM (fun '(ret, c) elt => throw_if elt <=? 0 >>> Ok (if 1 <? elt then (ret * (elt - 1), true) else (ret, c))) ngs (1, false) in
  Ok (if isCatched : bool then ret else 0).
Definition getNumberOfNodes (ngs : list Z) : Z := foldl Z.mul 1 ngs.

(** Lines 1601-1618 and 1627-1644. *)
Definition locate (dim : Z) (struc : list Z) (id : Z) : res (list Z) :=
  let nb := accInt Z.mul 1 struc in
  throw_if (id <? 0) || (nb <=? id) >>>
  let* spt := GetSplitVectFromStruct struc in
  GetPosFromId id dim spt (replicate (Z.to_nat dim) 0).
Definition getLocationFromCellId (ngs : list Z) (id : Z) : res (list Z) :=
  let* dim := getMeshDimension ngs in locate dim (getCellGridStructure ngs) id.
Definition getLocationFromNodeId (ngs : list Z) (id : Z) : res (list Z) := locate (zlen ngs) ngs id.
(** Lines 1530-1539 and 1548-1557 with getSplitCellValues 243-249 and getSplitNodeValues 251-257: the arrays have three cells. *)
Definition idFromPos (dim : Z) (struc : list Z) (i j k : Z) : res Z :=
  let* spt := GetSplitVectFromStruct struc in
  let* tmp2 := copyc spt 0 (zlen spt) (malloc Z 3) 0 in
  let* tmp := forZ 0 dim (fun l tmp => let* a := rd tmp l in let* b := rdc tmp2 l in wr tmp l (a * b)) [i; j; k] in
  Ok (accInt Z.add 0 (take (Z.to_nat dim) tmp)).
Definition getCellIdFromPos (ngs : list Z) (i j k : Z) : res Z :=
  let* dim := getMeshDimension ngs in idFromPos dim (getCellGridStructure ngs) i j k.
Definition getNodeIdFromPos (ngs : list Z) (i j k : Z) : res Z := idFromPos (zlen ngs) ngs i j k.

(** * Boxes: lists of half-open intervals, one per axis. *)
Definition box := list (Z * Z).
(** Lines 955-977, 979-994, 1819-1837, 1846-1863. *)
Definition DeduceNumberOfGivenRangeInCompactFrmt (part : box) : res Z :=
  foldM (fun ret '(a, b) => throw_if (a <? 0) || (b <? 0) || (b - a <? 0) >>> Ok (ret * (b - a))) part 1.
Definition DeduceNumberOfGivenStructure (st : list Z) : res Z :=
  let* ret := foldM (fun ret n => throw_if n <? 0 >>> Ok (ret * n)) st 1 in
  Ok (if bool_decide (st = []) then 0 else ret).
Definition GetDimensionsFromCompactFrmt (part : box) : res (list Z) :=
  foldM (fun ret '(a, b) => throw_if b <? a >>> Ok (ret ++ [b - a])) part [].
Definition GetCompactFrmtFromDimensions (dims : list Z) : res box :=
  foldM (fun ret n => throw_if n <? 0 >>> Ok (ret ++ [(0, n)])) dims [].

(** The loop nest shared by SwitchOnIdsFrom 1979-2013, ExtractFieldOfBoolFrom 2050-2084, ExtractFieldOfDoubleFrom 2127-2175,
    BuildExplicitIdsFrom 2388-2421 and MultiplyPartOf 2473-2533; [body c s] is the statement for the cell [c]. *)
Definition forBox {S} (st : list Z) (part : box) (dims : list Z) (body : Z -> S -> res S) (s : S) : res S :=
  match st, part, dims with
  | [st0; st1; st2], [(p0, _); (p1, _); (p2, _)], [d0; d1; d2] =>
    forZ 0 d2 (fun i s => let a := (p2 + i) * st0 * st1 in
      forZ 0 d1 (fun j s => let b := (p1 + j) * st0 in
        forZ 0 d0 (fun k s => body (p0 + k + b + a) s) s) s) s
  | [st0; st1], [(p0, _); (p1, _)], [d0; d1] =>
    forZ 0 d1 (fun j s => let b := (p1 + j) * st0 in
      forZ 0 d0 (fun k s => body (p0 + k + b) s) s) s
  | [st0], [(p0, _)], [d0] => forZ 0 d0 (fun k s => body (p0 + k) s) s
  | _, _, _ => Throw
  end.

(** The checks of BuildExplicitIdsFrom 2374-2384 and MultiplyPartOf 2453-2462. *)
Definition checkedDims (st : list Z) (part : box) : res (list Z) :=
  let* (_, dims) := foldM (fun '(i, dims) '(a, b) =>
    let* n := rd st i in
    throw_if (a <? 0) || (n <? a) >>>
    throw_if (b <? 0) || (n <? b) >>>
    throw_if b <? a >>> Ok (i + 1, dims ++ [b - a])) part (0, []) in
  Ok dims.
(** Lines 2363-2423. *)
Definition BuildExplicitIdsFrom (st : list Z) (part : box) : res (list Z) :=
  throw_if negb (zlen st =? zlen part) >>>
  let* dims := checkedDims st part in
  let* pt := alloc Z (foldl Z.mul 1 dims) 1 in
  let* (pt, _) := forBox st part dims (fun c '(pt, o) => let* pt := wrc pt o c in Ok (pt, o + 1)) (pt, 0) in
  initialised pt.
(** Lines 1962-2014. *)
Definition SwitchOnIdsFrom (st : list Z) (part : box) (v : list bool) : res (list bool) :=
  throw_if negb (zlen st =? zlen part) >>>
  let* n := DeduceNumberOfGivenStructure st in
  throw_if negb (zlen v =? n) >>>
  let* dims := GetDimensionsFromCompactFrmt part in
  forBox st part dims (fun c v => wr v c true) v.
(** Lines 2029-2085.  [resize] keeps the beginning of the vector and fills with false. *)
Definition ExtractFieldOfBoolFrom (st : list Z) (field : list bool) (part : box) (out : list bool) : res (list bool) :=
  throw_if negb (zlen st =? zlen part) >>>
  let* n := DeduceNumberOfGivenStructure st in
  throw_if negb (zlen field =? n) >>>
  let* dims := GetDimensionsFromCompactFrmt part in
  let* m := DeduceNumberOfGivenStructure dims in
  let out := resize (Z.to_nat m) false out in
  let* (out, _) := forBox st part dims (fun c '(out, it) => let* x := rd field c in let* out := wr out it x in Ok (out, it + 1)) (out, 0) in
  Ok out.
(** Lines 2099-2177. *)
Definition ExtractFieldOfDoubleFrom {A} (st : list Z) (field : option (da A)) (part : box) : res (da A) :=
  match field with None => Throw | Some f =>
  checkAllocated f (
  throw_if negb (zlen st =? zlen part) >>>
  let* n := DeduceNumberOfGivenStructure st in
  throw_if negb (da_nt f =? n) >>>
  let* dims := GetDimensionsFromCompactFrmt part in
  let* m := DeduceNumberOfGivenStructure dims in
  let nbComp := da_nc f in
  let* pt := alloc A m nbComp in
  let* (pt, _) := forBox st part dims (fun c '(pt, o) =>
    let* pt := copyc (da_vals f) (c * nbComp) ((c + 1) * nbComp) pt o in Ok (pt, o + nbComp)) (pt, 0) in
  let* r := initialised pt in
  Ok (DA true nbComp r)) end.
(** Lines 2436-2534; [mul] is the multiplication by the factor. *)
Definition MultiplyPartOf {A} (mul : A -> A) (st : list Z) (part : box) (d : option (da A)) : res (da A) :=
  match d with None => Throw | Some d =>
  checkAllocated d (
  throw_if negb (zlen st =? zlen part) >>>
  let* dims := checkedDims st part in
  let* n := DeduceNumberOfGivenStructure st in
  let nbCompo := da_nc d in
  throw_if negb (da_nt d =? n) >>>
  let* pt := forBox st part dims (fun offset pt =>
    forZ (nbCompo * offset) (nbCompo * (offset + 1)) (fun x pt => let* v := rd pt x in wr pt x (mul v)) pt) (da_vals d) in
  Ok (DA true nbCompo pt)) end.

(** Lines 1717-1810; [Some part] for true.  The early [return false] stops the comparison. *)
Definition IsPartStructured (ids : list Z) (st : list Z) : res (option box) :=
  let dim := zlen st in
  throw_if (dim <? 1) || (3 <? dim) >>>
  let* tmp2 := (let* t := wr (replicate (length st) 0) 0 1 in
    forZ 1 dim (fun i t => let* a := rd t (i - 1) in let* b := rd st (i - 1) in wr t i (a * b)) t) in
  let sz := zlen ids in
  throw_if sz =? 0 >>>
  let* first := rd ids 0 in
  let* tmp := GetPosFromId first dim tmp2 (replicate (length st) 0) in
  let* tl := rd tmp (dim - 1) in let* sl := rd st (dim - 1) in
  throw_if (tl <? 0) || (sl <=? tl) >>>
  if sz =? 1 then Ok (Some ((fun t => (t, t + 1)) <$> tmp)) else
  let* last := rd ids (sz - 1) in
  let* tmp3 := GetPosFromId last dim tmp2 (replicate (length st) 0) in
  let* (part, tmp4, szExp, ok) := forZ 0 dim (fun i '(part, tmp4, szExp, ok) =>
    if ok : bool then
      let* l := rd tmp3 i in let* n := rd st i in
      throw_if (l <? 0) || (n <=? l) >>>
      let* f := rd tmp i in
      let d := l + 1 - f in
      Ok (part ++ [(f, l + 1)], tmp4 ++ [d], szExp * d, negb (d <=? 0))
    else Ok (part, tmp4, szExp, ok)) ([], [], 1, true) in
  if negb ok then Ok None else
  if negb (szExp =? sz) then Ok None else
  let cmp c := (fun '(w, ok) => if ok : bool then let* x := rd ids w in Ok (w + 1, c =? x) else Ok (w, ok)) : Z * bool -> res (Z * bool) in
  let* (_, ok) := (match tmp2, part, tmp4 with
    | [_; s1; s2], [(p0, _); (p1, _); (p2, _)], [d0; d1; d2] =>
      forZ 0 d2 (fun i s => let a := s2 * (p2 + i) in
        forZ 0 d1 (fun j s => let b := s1 * (p1 + j) in
          forZ 0 d0 (fun k s => cmp (p0 + k + b + a) s) s) s) (0, true)
    | [_; s1], [(p0, _); (p1, _)], [d0; d1] =>
      forZ 0 d1 (fun j s => let b := s1 * (p1 + j) in
        forZ 0 d0 (fun k s => cmp (p0 + k + b) s) s) (0, true)
    | [_], [(p0, _)], [d0] => forZ 0 d0 (fun k s => cmp (p0 + k) s) (0, true)
    | _, _, _ => Throw
    end) in
  Ok (if ok : bool then Some part else None).

(** * Arithmetic of boxes *)
(** Lines 1871-1909. *)
Definition IntersectRanges (r1 r2 : box) : res box :=
  throw_if negb (zlen r1 =? zlen r2) >>>
  foldM (fun ret '((a1, b1), (a2, b2)) =>
    throw_if b1 <? a1 >>> throw_if b2 <? a2 >>>
    let a := Z.max a1 a2 in let b := Z.min b1 b2 in
    throw_if b <? a >>> Ok (ret ++ [(a, b)])) (zip r1 r2) [].
(** Lines 1917-1949: the loop returns false at the first axis without intersection. *)
Fixpoint rangesIntersect (l : list ((Z * Z) * (Z * Z))) : res bool :=
  match l with
  | [] => Ok true
  | ((a1, b1), (a2, b2)) :: l =>
    throw_if b1 <? a1 >>> throw_if b2 <? a2 >>>
    if b1 <=? a2 then Ok false else if b2 <=? a1 then Ok false else rangesIntersect l
  end.
Definition AreRangesIntersect (r1 r2 : box) : res bool :=
  throw_if negb (zlen r1 =? zlen r2) >>> rangesIntersect (zip r1 r2).
(** Lines 2208-2255 and 2262-2311. *)
Definition ChangeReferenceFromGlobalOfCompactFrmt (big part : box) (check : bool) : res box :=
  throw_if negb (zlen big =? zlen part) >>>
  foldM (fun ret '((ba, bb), (a, b)) =>
    throw_if check && (bb <? ba) >>>
    throw_if check && ((a <? ba) || (bb <=? a)) >>>
    throw_if check && ((b <? a) || (bb <? b)) >>>
    Ok (ret ++ [(a - ba, b - ba)])) (zip big part) [].
Definition ChangeReferenceToGlobalOfCompactFrmt (big part : box) (check : bool) : res box :=
  throw_if negb (zlen big =? zlen part) >>>
  foldM (fun ret '((ba, bb), (a, b)) =>
    throw_if check && (bb <? ba) >>>
    throw_if check && ((a <? 0) || (bb - ba <=? a)) >>>
    throw_if check && ((b <? a) || (bb - ba <? b)) >>>
    Ok (ret ++ [(a + ba, b + ba)])) (zip big part) [].
(** Lines 2318-2333 and 2338-2353. *)
Definition TranslateCompactFrmt (part : box) (t : list Z) : res box :=
  throw_if negb (zlen t =? zlen part) >>> Ok (zip_with (fun '(a, b) d => (a + d, b + d)) part t).
Definition FindTranslationFrom (from to : box) : res (list Z) :=
  throw_if negb (zlen to =? zlen from) >>> Ok (zip_with (fun p q => fst q - fst p) from to).
(** Lines 2612-2627 and 2575-2606. *)
Definition ApplyGhostOnCompactFrmt (part : box) (g : Z) : res box :=
  throw_if g <? 0 >>> Ok ((fun '(a, b) => (a + g, b + g)) <$> part).
Definition PutInGhostFormat (g : Z) (st : list Z) (part : box) : res (list Z * box) :=
  throw_if g <? 0 >>>
  throw_if negb (zlen st =? zlen part) >>>
  throw_if existsb (fun '((a, b), n) => (a <? 0) || (b <? a) || (n <? b)) (zip part st) >>>
  let* p := ApplyGhostOnCompactFrmt part g in
  Ok ((fun n => n + 2 * g) <$> st, p).

(** * FindMinimalPartOf *)
Definition maxId : Z := 9223372036854775807.
(** Lines 1339-1349, 1386-1396, 1439-1449. *)
Definition middlePart (st : list Z) : box := (fun n => (Z.quot n 2, Z.quot n 2)) <$> st.
(** Lines 1317-1354, 1359-1403, 1408-1458: the loops.  State: number of true cells, then min and max per axis. *)
Definition FindMinimalPartOf1D (st : list Z) (crit : list bool) : res (Z * box) :=
  match st with
  | [nx] =>
    let* (ret, xm, xM) := forZ 0 nx (fun i '(ret, xm, xM) =>
      let* c := rd crit i in
      Ok (if c : bool then (ret + 1, Z.min xm i, Z.max xM i) else (ret, xm, xM))) (0, maxId, - maxId) in
    Ok (ret, if ret =? 0 then middlePart st else [(xm, xM + 1)])
  | _ => Throw
  end.
Definition FindMinimalPartOf2D (st : list Z) (crit : list bool) : res (Z * box) :=
  match st with
  | [nx; ny] =>
    let* (_, (ret, xm, xM, ym, yM)) := forZ 0 ny (fun i s => forZ 0 nx (fun j '(it, (ret, xm, xM, ym, yM)) =>
      let* c := rd crit it in
      Ok (it + 1, if c : bool then (ret + 1, Z.min xm j, Z.max xM j, Z.min ym i, Z.max yM i) else (ret, xm, xM, ym, yM))) s)
      (0, (0, maxId, - maxId, maxId, - maxId)) in
    Ok (ret, if ret =? 0 then middlePart st else [(xm, xM + 1); (ym, yM + 1)])
  | _ => Throw
  end.
Definition FindMinimalPartOf3D (st : list Z) (crit : list bool) : res (Z * box) :=
  match st with
  | [nx; ny; nz] =>
    let* (_, (ret, xm, xM, ym, yM, zm, zM)) := forZ 0 nz (fun i s => forZ 0 ny (fun j s => forZ 0 nx (fun k '(it, (ret, xm, xM, ym, yM, zm, zM)) =>
      let* c := rd crit it in
      Ok (it + 1, if c : bool then (ret + 1, Z.min xm k, Z.max xM k, Z.min ym j, Z.max yM j, Z.min zm i, Z.max zM i) else (ret, xm, xM, ym, yM, zm, zM))) s) s)
      (0, (0, maxId, - maxId, maxId, - maxId, maxId, - maxId)) in
    Ok (ret, if ret =? 0 then middlePart st else [(xm, xM + 1); (ym, yM + 1); (zm, zM + 1)])
  | _ => Throw
  end.
(** Lines 1084-1104: one axis. *)
Definition enlarge (minLgth n : Z) (r : Z * Z) : res (Z * Z) :=
  throw_if n <? minLgth >>>
  let '(start, stop) := r in
  let middle := Z.quot (start + stop) 2 in
  if stop - start <? minLgth then
    let f := middle - Z.quot minLgth 2 in let s := middle + minLgth - Z.quot minLgth 2 in
    let '(f, s) := (if f <? 0 then (0, s + - f) else (f, s)) in
    Ok (if n <? s then (f - (s - n), n) else (f, s))
  else Ok (start, stop).
(** Lines 1037-1108; result: number of true cells, reduced criterion, part. *)
Definition FindMinimalPartOf (minLgth : Z) (st : list Z) (crit reduced : list bool) : res (Z * list bool * box) :=
  throw_if minLgth <? 0 >>>
  let* n := DeduceNumberOfGivenStructure st in
  throw_if negb (zlen crit =? n) >>>
  let* (ret, part) := (match zlen st with 1 => FindMinimalPartOf1D st crit | 2 => FindMinimalPartOf2D st crit | 3 => FindMinimalPartOf3D st crit | _ => Throw end) in
  let* _ := GetDimensionsFromCompactFrmt part in
  let* (_, part) := foldM (fun '(i, out) r => let* n := rd st i in let* r := enlarge minLgth n r in Ok (i + 1, out ++ [r])) part (0, []) in
  let* reduced := ExtractFieldOfBoolFrom st crit part reduced in
  Ok (ret, reduced, part).

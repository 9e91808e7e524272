(** Set algebra on arrays of ids, and permutations between arrays. *)
From stdpp Require Import gmap.
From Verif Require Import Base DataArray StdModel RenumModel.

(** MEDCouplingMemArray.txx 6418-6442.  [std::vector<bool> tmp(n)] throws length_error when [n] is negative. *)
Definition buildComplement (nbOfElement : Z) (d : da Z) : res (list (option Z)) :=
  checkAllocated d (checkOneComp d (
  throw_if nbOfElement <? 0 >>>
  let* tmp := foldM (fun tmp w =>
    if (0 <=? w) && (w <? nbOfElement) then wr tmp w true else Throw) (da_vals d) (replicate (Z.to_nat nbOfElement) false) in
  let nbOfRetVal := zlen (filter (fun b => b = false) tmp) in
  let* ret := alloc Z nbOfRetVal 1 in
  let* (_, ret) := forZ 0 nbOfElement (fun i '(j, ret) =>
    let* b := rd tmp i in
    if negb b then let* ret := wrc ret j i in Ok (j + 1, ret) else Ok (j, ret)) (0, ret) in
  Ok ret)).

(** MEDCouplingMemArray.txx 6459-6483; [None] is a null pointer. *)
Definition buildSubstraction (d : da Z) (other : option (da Z)) : res (list Z) :=
  match other with
  | None => Throw
  | Some o =>
    checkAllocated d (checkAllocated o (checkOneComp d (checkOneComp o (
    Ok (set_difference (set_of (da_vals d)) (set_of (da_vals o)))))))
  end.

(** The loop of buildSubstractionOptimized, MEDCouplingMemArray.txx 6510-6516; [l2] is the part of other from [work2] on. *)
Fixpoint subOptLoop (l1 l2 : list Z) : list Z :=
  match l1 with
  | [] => []
  | x :: l1' => match l2 with
                | y :: l2' => if x =? y then subOptLoop l1' l2' else x :: subOptLoop l1' l2
                | [] => x :: subOptLoop l1' l2
                end
  end.
(** MEDCouplingMemArray.txx 6495-6518. *)
Definition buildSubstractionOptimized (d : da Z) (other : option (da Z)) : res (list Z) :=
  match other with
  | None => Throw
  | Some o =>
    checkAllocated d (checkAllocated o (checkOneComp d (checkOneComp o (Ok (subOptLoop (da_vals d) (da_vals o))))))
  end.

(** The checks at the beginning of BuildUnion / BuildIntersection: null pointers are skipped, then each array is checked. *)
Definition checkArrays {B} (a : list (da Z)) (k : res B) : res B :=
  let* _ := foldM (fun (_ : unit) d => checkAllocated d (checkOneComp d (Ok tt))) a tt in k.
Definition notNull {A} (l : list (option A)) : list A := omap id l.
(** MEDCouplingMemArray.txx 8479-8503. *)
Definition BuildUnion (arr : list (option (da Z))) : res (list Z) :=
  let a := notNull arr in
  checkArrays a (Ok (foldl (fun r d => sins_all (da_vals d) r) [] a)).
(** MEDCouplingMemArray.txx 8517-8555. *)
Definition BuildIntersection (arr : list (option (da Z))) : res (list Z) :=
  let a := notNull arr in
  checkArrays a (
  throw_if zlen a =? 1 >>>
  Ok (match a with
      | [] => []
      | d0 :: a' => foldl (fun r d => sins_all (set_intersection r (set_of (da_vals d))) []) (set_of (da_vals d0)) a'
      end)).
(** MEDCouplingMemArray.txx 6533-6560. *)
Definition buildUnion (d : da Z) (other : option (da Z)) := BuildUnion [Some d; other].
Definition buildIntersection (d : da Z) (other : option (da Z)) := BuildIntersection [Some d; other].

(** MEDCouplingMemArray.txx 6623-6637. *)
Definition buildUnique (d : da Z) : res (list Z) :=
  checkAllocated d (checkOneComp d (Ok (unique (da_vals d)))).

(** MEDCouplingMemArray.txx 6132-6150: the initial values are +-numeric_limits<T>::max(), here a parameter [big]. *)
Definition getMinMaxValues (big : Z) (d : da Z) : res (Z * Z) :=
  checkAllocated d (checkOneComp d (
  Ok (foldl (fun '(mn, mx) v => (if v <? mn then v else mn, if mx <? v then v else mx)) (big, - big) (da_vals d)))).

(** MEDCouplingMemArray.txx 6651-6672.  [std::vector<bool> b(maxVal-minVal+1)]: a difference that does not fit the
    integer type, or is negative once converted, is undefined or throws; here it is undefined when it exceeds [big]. *)
Definition buildUniqueNotSorted (big : Z) (d : da Z) : res (list Z) :=
  checkAllocated d (checkOneComp d (
  let* (minVal, maxVal) := getMinMaxValues big d in
  ub_if (big <? maxVal - minVal + 1) || (maxVal - minVal + 1 <? - big) >>>
  throw_if maxVal - minVal + 1 <? 0 >>>
  let* (_, ret) := foldM (fun '(b, ret) v =>
    let* seen := rd b (v - minVal) in
    if negb seen then let* b := wr b (v - minVal) true in Ok (b, ret ++ [v]) else Ok (b, ret))
    (da_vals d) (replicate (Z.to_nat (maxVal - minVal + 1)) false, []) in
  Ok ret)).

(** MEDCouplingMemArray.txx 7460-7469. *)
Definition getDifferentValues (d : da Z) : res (list Z) := checkAllocated d (Ok (set_of (da_vals d))).

(** The pack loop of indexOfSameConsecutiveValueGroups, MEDCouplingMemArray.txx 6600-6607: [pos] is the offset of pt, [l] the
    values from pt on; the first loop (6588-6594) only counts the packs for the allocation. *)
Fixpoint packEnds (fuel : nat) (pos : Z) (l : list Z) : res (list Z) :=
  match fuel with
  | O => Fuel
  | Datatypes.S f => match l with
    | [] => Ok []
    | val :: l' =>
      let e := find_if (fun elt => negb (val =? elt)) l' in
      let* r := packEnds f (pos + 1 + e) (drop (Z.to_nat e) l') in Ok (pos + 1 + e :: r)
    end
  end.
(** MEDCouplingMemArray.txx 6577-6609. *)
Definition indexOfSameConsecutiveValueGroups (d : da Z) : res (list Z) :=
  checkAllocated d (checkOneComp d (
  let* r := packEnds (Datatypes.S (length (da_vals d))) 0 (da_vals d) in Ok (0 :: r))).

(** * Permutations between arrays *)

(** MEDCouplingMemArray.txx 4260-4294. *)
Definition buildPermutationArr (d other : da Z) : res (list (option Z)) :=
  checkAllocated d (
  throw_if negb (da_nc d =? 1) || negb (da_nc other =? 1) >>>
  let nbTuple := da_nt d in
  checkAllocated other (
  throw_if negb (nbTuple =? da_nt other) >>>
  let* ret := alloc Z nbTuple 1 in
  let ret := replicate (length ret) (Some (-1)) in
  let* mm := forZ 0 nbTuple (fun i (mm : gmap Z Z) => let* v := rd (da_vals d) i in Ok (<[v := i]> mm)) ∅ in
  forZ 0 nbTuple (fun i ret =>
    let* v := rd (da_vals other) i in
    match mm !! v with None => Throw | Some k => wrc ret i k end) ret)).

(** MEDCouplingMemArray.txx 4311-4342. *)
Definition indicesOfSubPart (d part : da Z) : res (list (option Z)) :=
  throw_if negb (da_nc d =? 1) || negb (da_nc part =? 1) >>>
  checkAllocated d (checkAllocated part (
  let thisNbTuples := da_nt d in let nbTuples := da_nt part in
  let* ret := alloc Z nbTuples 1 in
  let* m := forZ 0 thisNbTuples (fun i (m : gmap Z Z) => let* v := rd (da_vals d) i in Ok (<[v := i]> m)) ∅ in
  throw_if negb (Z.of_nat (size m) =? thisNbTuples) >>>
  forZ 0 nbTuples (fun i ret =>
    let* v := rd (da_vals part) i in
    match m !! v with Some k => wrc ret i k | None => Throw end) ret)).

(** MEDCouplingMemArray.txx 5269-5291. *)
Definition findIdForEach (vals : list Z) (d : da Z) : res (list (option Z)) :=
  let* ret := alloc Z (zlen vals) 1 in
  let* dat := invertArrayN2O2O2NOptimized d in
  forZ 0 (zlen vals) (fun i ret =>
    let* v := rd vals i in
    match dat !! v with Some k => wrc ret i k | None => Throw end) ret.

(** MEDCouplingMemArray.txx 8298-8317.  [m[*iter]] on a missing key would insert 0. *)
Definition CheckAndPreparePermutationRaw (l : list Z) : res (list (option Z)) :=
  let work := sort l in
  throw_if negb (zlen (unique work) =? zlen l) >>>
  let* m := forZ 0 (zlen l) (fun i (m : gmap Z Z) => let* v := rd work i in Ok (<[v := i]> m)) ∅ in
  forZ 0 (zlen l) (fun i ret => let* v := rd l i in wrc ret i (default 0 (m !! v))) (malloc Z (zlen l)).
(** MEDCouplingMemArray.txx 5309-5320. *)
Definition checkAndPreparePermutation (d : da Z) : res (list (option Z)) :=
  checkAllocated d (checkOneComp d (CheckAndPreparePermutationRaw (da_vals d))).

(** Prefix sums over the map, MEDCouplingMemArray.txx 5440-5446. *)
Fixpoint mapPrefixSums (sum : Z) (m : list (Z * Z)) : list (Z * Z) :=
  match m with [] => [] | (k, vt) :: m' => (k, sum) :: mapPrefixSums (sum + vt) m' end.
(** MEDCouplingMemArray.txx 5414-5453. *)
Definition buildPermArrPerLevel (d : da Z) : res (list (option Z)) :=
  checkAllocated d (checkOneComp d (
  let nb := da_nt d in
  let* ret := alloc Z nb 1 in
  let* (m, ret) := forZ 0 nb (fun i '(m, ret) =>
    let* val := rd (da_vals d) i in
    match mget val m with
    | Some c => let* ret := wrc ret i c in Ok (mset val (c + 1) m, ret)
    | None => let* ret := wrc ret i 0 in Ok (mset val 1 m, ret)
    end) ([], ret) in
  let m := mapPrefixSums 0 m in
  forZ 0 nb (fun i ret =>
    let* val := rd (da_vals d) i in
    let* c := rdc ret i in
    wrc ret i (c + default 0 (mget val m))) ret)).

(** MEDCouplingMemArray.txx 4212-4235. *)
Definition occurenceRankInThis (d : da Z) : res (list (option Z)) :=
  checkAllocated d (checkOneComp d (
  let* ret := alloc Z (da_nt d) 1 in
  let* (_, ret) := forZ 0 (da_nt d) (fun i '(m, ret) =>
    let* v := rd (da_vals d) i in
    match (m : gmap Z Z) !! v with
    | None => let* ret := wrc ret i 0 in Ok (<[v := 1]> m, ret)
    | Some c => let* ret := wrc ret i c in Ok (<[v := c + 1]> m, ret)
    end) (∅, ret) in
  Ok ret)).

(** Conversion of a fully written buffer into values: reading an indeterminate cell is undefined. *)
Definition readAll {A} (l : list (option A)) : res (list A) :=
  foldM (fun acc i => let* v := rdc l i in Ok (acc ++ [v])) (seqZ 0 (zlen l)) [].

(** MEDCouplingMemArray.txx 8155-8191.  isEqualWithoutConsideringStr of the sorted copies is equality of the values. *)
Definition FindPermutationFromFirstToSecond (ids1 ids2 : option (da Z)) : res (list (option Z)) :=
  match ids1, ids2 with
  | Some d1, Some d2 =>
    throw_if negb (da_alloc d1) || negb (da_alloc d2) >>>
    throw_if negb (da_nc d1 =? 1) || negb (da_nc d2 =? 1) >>>
    throw_if negb (da_nt d1 =? da_nt d2) >>>
    throw_if negb (bool_decide (sort (da_vals d1) = sort (da_vals d2))) >>>
    let* p1 := checkAndPreparePermutation d1 in
    let* p2 := checkAndPreparePermutation d2 in
    let* p1 := readAll p1 in
    let* p2 := readAll p2 in
    let* p2 := invertArrayO2N2N2O (vec p2) (zlen p2) in
    let* p2 := readAll p2 in
    let* r := mySelectByTupleIdSafe (vec p2) p1 in
    Ok (da_vals r)
  | _, _ => Throw
  end.

(** MEDCouplingMemArray.txx 8221-8281. *)
Definition FindPermutationFromFirstToSecondDuplicate (ids1 ids2 : option (da Z)) : res (list (option Z)) :=
  match ids1, ids2 with
  | Some d1, Some d2 =>
    checkAllocated d1 (checkAllocated d2 (checkOneComp d1 (checkOneComp d2 (
    let nb := da_nt d1 in
    throw_if negb (nb =? da_nt d2) >>>
    let* ret := alloc Z nb 1 in
    let* oids2 := occurenceRankInThis d2 in
    let* oids2 := readAll oids2 in
    let* m := forZ 0 nb (fun pos (m : gmap (Z * Z) Z) =>
      let* v := rd (da_vals d2) pos in let* o := rd oids2 pos in Ok (<[(v, o) := pos]> m)) ∅ in
    let* (_, ret) := forZ 0 nb (fun i '(mo, ret) =>
      let* v := rd (da_vals d1) i in
      let '(occ, mo) := match (mo : gmap Z Z) !! v with
                        | None => (0, <[v := 1]> mo)
                        | Some c => (c, <[v := c + 1]> mo)
                        end in
      match m !! (v, occ) with
      | Some k => let* ret := wrc ret i k in Ok (mo, ret)
      | None => Throw
      end) (∅, ret) in
    Ok ret))))
  | _, _ => Throw
  end.

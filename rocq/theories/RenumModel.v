(** Renumbering, selection and inversion of arrays of tuples. *)
From stdpp Require Import gmap.
From Verif Require Import Base DataArray SlicesModel.

(** MEDCouplingMemArray.txx 1274-1289. The map is a raw pointer: reading it past its end is undefined. *)
Definition renumber {A} (d : da A) (old2New : list Z) : res (da (option A)) :=
  checkAllocated d (
  let nbTuples := da_nt d in let nbOfCompo := da_nc d in
  let* optr := alloc A nbTuples nbOfCompo in
  let* optr := forZ 0 nbTuples (fun i optr =>
    let* v := rd old2New i in
    copyc (da_vals d) (nbOfCompo * i) (nbOfCompo * (i + 1)) optr (nbOfCompo * v)) optr in
  Ok (DA true nbOfCompo optr)).

(** MEDCouplingMemArray.txx 1304-1319. *)
Definition renumberR {A} (d : da A) (new2Old : list Z) : res (da (option A)) :=
  checkAllocated d (
  let nbTuples := da_nt d in let nbOfCompo := da_nc d in
  let* optr := alloc A nbTuples nbOfCompo in
  let* optr := forZ 0 nbTuples (fun i optr =>
    let* v := rd new2Old i in
    copyc (da_vals d) (nbOfCompo * v) (nbOfCompo * (v + 1)) optr (i * nbOfCompo)) optr in
  Ok (DA true nbOfCompo optr)).

(** Result of an in-place operation: the outcome and the state of the object afterwards (its cells). *)
Definition inplace {A} (d : da A) (r : res (list (option A))) : res unit * da (option A) :=
  match r with
  | Ok cells => (Ok tt, DA (da_alloc d) (da_nc d) cells)
  | Throw => (Throw, DA (da_alloc d) (da_nc d) (Some <$> da_vals d))
  | UB => (UB, DA (da_alloc d) (da_nc d) [])
  | Fuel => (Fuel, DA (da_alloc d) (da_nc d) [])
  end.

(** MEDCouplingMemArray.txx 1138-1161: the values go to a temporary buffer [tmp], copied back as a whole at the end
    (indeterminate cells of tmp included), so nothing is written to the object before the last throw. *)
Definition renumberInPlace {A} (d : da A) (old2New : list Z) : res unit * da (option A) :=
  inplace d (checkAllocated d (
  let nbTuples := da_nt d in let nbOfCompo := da_nc d in
  let* tmp := alloc A nbTuples nbOfCompo in
  forZ 0 nbTuples (fun i tmp =>
    let* v := rd old2New i in
    if (0 <=? v) && (v <? nbTuples)
    then copyc (da_vals d) (nbOfCompo * i) (nbOfCompo * (i + 1)) tmp (nbOfCompo * v)
    else Throw) tmp)).

(** MEDCouplingMemArray.txx 1173-1196. *)
Definition renumberInPlaceR {A} (d : da A) (new2Old : list Z) : res unit * da (option A) :=
  inplace d (checkAllocated d (
  let nbTuples := da_nt d in let nbOfCompo := da_nc d in
  let* tmp := alloc A nbTuples nbOfCompo in
  forZ 0 nbTuples (fun i tmp =>
    let* v := rd new2Old i in
    if (0 <=? v) && (v <? nbTuples)
    then copyc (da_vals d) (nbOfCompo * v) (nbOfCompo * (v + 1)) tmp (nbOfCompo * i)
    else Throw) tmp)).

(** MEDCouplingMemArray.txx 1336-1354. *)
Definition renumberAndReduce {A} (d : da A) (old2New : list Z) (newNbOfTuple : Z) : res (da (option A)) :=
  checkAllocated d (
  let nbTuples := da_nt d in let nbOfCompo := da_nc d in
  let* optr := alloc A newNbOfTuple nbOfCompo in
  let* optr := forZ 0 nbTuples (fun i optr =>
    let* w := rd old2New i in
    if 0 <=? w then copyc (da_vals d) (i * nbOfCompo) ((i + 1) * nbOfCompo) optr (w * nbOfCompo) else Ok optr) optr in
  Ok (DA true nbOfCompo optr)).

(** MEDCouplingMemArray.txx 1374-1389; [ids] is the range [new2OldBg,new2OldEnd). *)
Definition mySelectByTupleId {A} (d : da A) (ids : list Z) : res (da (option A)) :=
  checkAllocated d (
  let nbComp := da_nc d in
  let* pt := alloc A (zlen ids) nbComp in
  let* pt := forZ 0 (zlen ids) (fun i pt =>
    let* w := rd ids i in
    copyc (da_vals d) (w * nbComp) ((w + 1) * nbComp) pt (i * nbComp)) pt in
  Ok (DA true nbComp pt)).

(** MEDCouplingMemArray.txx 1454-1478. *)
Definition mySelectByTupleIdSafe {A} (d : da A) (ids : list Z) : res (da (option A)) :=
  checkAllocated d (
  let nbComp := da_nc d in
  let oldNbOfTuples := da_nt d in
  let* pt := alloc A (zlen ids) nbComp in
  let* pt := forZ 0 (zlen ids) (fun i pt =>
    let* w := rd ids i in
    if (0 <=? w) && (w <? oldNbOfTuples)
    then copyc (da_vals d) (w * nbComp) ((w + 1) * nbComp) pt (i * nbComp)
    else Throw) pt in
  Ok (DA true nbComp pt)).

(** MEDCouplingMemArray.txx 1693-1709; [srcPt] is the offset of the source pointer, bumped by step*nbComp. *)
Definition mySelectByTupleIdSafeSlice {A} (d : da A) (bg end2 step : Z) : res (da (option A)) :=
  checkAllocated d (
  let nbComp := da_nc d in
  let* newNbOfTuples := GetNumberOfItemGivenBESRelative bg end2 step in
  let* pt := alloc A newNbOfTuples nbComp in
  let* (_, pt) := forZ 0 newNbOfTuples (fun i '(srcPt, pt) =>
    let* pt := copyc (da_vals d) srcPt (srcPt + nbComp) pt (i * nbComp) in
    Ok (srcPt + step * nbComp, pt)) (bg * nbComp, pt) in
  Ok (DA true nbComp pt)).

(** MEDCouplingMemArray.txx 1639-1674. *)
Definition subArray {A} (d : da A) (tupleIdBg tupleIdEnd : Z) : res (da (option A)) :=
  checkAllocated d (
  let nbt := da_nt d in
  throw_if tupleIdBg <? 0 >>>
  throw_if nbt <? tupleIdBg >>>
  throw_if negb (tupleIdEnd =? -1) && (nbt <? tupleIdEnd) >>>
  let trueEnd := if tupleIdEnd =? -1 then nbt else tupleIdEnd in
  let nbComp := da_nc d in
  let* pt := alloc A (trueEnd - tupleIdBg) nbComp in
  let* pt := copyc (da_vals d) (tupleIdBg * nbComp) (trueEnd * nbComp) pt 0 in
  Ok (DA true nbComp pt)).

(** First loop of selectByTupleRanges, MEDCouplingMemArray.txx 2496-2523; state (ref, nbOfTuples, isIncreasing). *)
Definition rangesScan (nbOfTuplesThis : Z) (ranges : list (Z * Z)) (ref : Z) : res (Z * Z * bool) :=
  foldM (fun '(ref, nb, inc) '(b, e) =>
    if b <=? e then
      if (0 <=? b) && (e <=? nbOfTuplesThis) then
        Ok (e, nb + (e - b), if inc : bool then ref <=? b else inc)
      else Throw
    else Throw) ranges (ref, 0, true).

(** MEDCouplingMemArray.txx 2481-2535; [work] is the offset of the write pointer.  deepCopy returns the same cells. *)
Definition mySelectByTupleRanges {A} (d : da A) (ranges : list (Z * Z)) : res (da (option A)) :=
  checkAllocated d (
  let nbOfComp := da_nc d in
  match ranges with
  | [] => Ok (DA true nbOfComp [])
  | (b0, _) :: _ =>
    let* (_, nbOfTuples, isIncreasing) := rangesScan (da_nt d) ranges b0 in
    if isIncreasing && (da_nt d =? nbOfTuples) then Ok (DA true nbOfComp (Some <$> da_vals d)) else
    let* work := alloc A nbOfTuples nbOfComp in
    let* (_, pt) := foldM (fun '(w, pt) '(b, e) =>
      let* pt := copyc (da_vals d) (b * nbOfComp) (e * nbOfComp) pt w in
      Ok (w + (e * nbOfComp - b * nbOfComp), pt)) ranges (0, work) in
    Ok (DA true nbOfComp pt)
  end).

(** MEDCouplingMemArray.txx 5086-5110.  No check on allocation nor on the number of components. *)
Definition invertArrayO2N2N2O (d : da Z) (newNbOfElem : Z) : res (list (option Z)) :=
  let* pt := alloc Z newNbOfElem 1 in
  forZ 0 (da_nt d) (fun i pt =>
    let* newp := rd (da_vals d) i in
    if negb (newp =? -1) then
      if (0 <=? newp) && (newp <? newNbOfElem) then wrc pt newp i else Throw
    else Ok pt) pt.

(** MEDCouplingMemArray.txx 5163-5187: the loop goes downwards, [i = nb-1-k]. *)
Definition invertArrayO2N2N2OBis (d : da Z) (newNbOfElem : Z) : res (list (option Z)) :=
  let* pt := alloc Z newNbOfElem 1 in
  let nb := da_nt d in
  forZ 0 nb (fun k pt =>
    let i := nb - 1 - k in
    let* newp := rd (da_vals d) i in
    if negb (newp =? -1) then
      if (0 <=? newp) && (newp <? newNbOfElem) then wrc pt newp i else Throw
    else Ok pt) pt.

(** MEDCouplingMemArray.txx 5131-5154; std::fill sets every cell to -1 first. *)
Definition invertArrayN2O2O2N (d : da Z) (oldNbOfElem : Z) : res (list (option Z)) :=
  checkAllocated d (
  let* pt := alloc Z oldNbOfElem 1 in
  let pt := replicate (length pt) (Some (-1)) in
  forZ 0 (da_nt d) (fun i pt =>
    let* v := rd (da_vals d) i in
    if (0 <=? v) && (v <? oldNbOfElem) then wrc pt v i else Throw) pt).

(** MEDCouplingMemArray.txx 5205-5220; std::map as a finite map. *)
Definition invertArrayN2O2O2NOptimized (d : da Z) : res (gmap Z Z) :=
  checkAllocated d (checkOneComp d (
  forZ 0 (da_nt d) (fun i m => let* v := rd (da_vals d) i in Ok (<[v := i]> m)) ∅)).

(** MEDCouplingMemArray.txx 5232-5247. *)
Definition giveN2OOptimized (d : da Z) : res (gmap Z Z) :=
  checkAllocated d (checkOneComp d (
  forZ 0 (da_nt d) (fun i m => let* v := rd (da_vals d) i in Ok (<[i := v]> m)) ∅)).

(** Index arrays: offsets, ranges, extraction from and modification of indexed arrays. *)
From Verif Require Import Base DataArray StdModel SlicesModel.

(** MEDCouplingMemArray.txx 6698-6712. *)
Definition deltaShiftIndex (d : da Z) : res (list (option Z)) :=
  checkAllocated d (checkOneComp d (
  let nb := da_nt d in
  throw_if nb <? 1 >>>
  let* out := alloc Z (nb - 1) 1 in
  forZ 0 (nb - 1) (fun i out =>
    let* a := rd (da_vals d) (i + 1) in let* b := rd (da_vals d) i in wrc out i (a - b)) out)).

(** MEDCouplingMemArray.txx 6733-6751: the values of the array afterwards. *)
Definition computeOffsets (d : da Z) : res (list Z) :=
  checkAllocated d (checkOneComp d (
  let nb := da_nt d in
  if nb =? 0 then Ok (da_vals d) else
  let* tmp := rd (da_vals d) 0 in
  let* work := wr (da_vals d) 0 0 in
  let* (work, _) := forZ 1 nb (fun i '(work, tmp) =>
    let* tmp2 := rd work i in
    let* p := rd work (i - 1) in
    let* work := wr work i (p + tmp) in
    Ok (work, tmp2)) (work, tmp) in
  Ok work)).

(** MEDCouplingMemArray.txx 6771-6783. *)
Definition computeOffsetsFull (d : da Z) : res (list (option Z)) :=
  checkAllocated d (checkOneComp d (
  let nb := da_nt d in
  let* ret := wrc (malloc Z (nb + 1)) 0 0 in
  forZ 0 nb (fun i ret => let* w := rd (da_vals d) i in let* r := rdc ret i in wrc ret (i + 1) (w + r)) ret)).

(** MEDCouplingMemArray.txx 6811-6861.  Pointers are positions; the state of the outer loop is
    (tupPtr, offPtr, ret0, ret1).  [listOfIds] null is [None].  In the condition of line 6839 [*tupPtr] is read before the
    comparison with [tupEnd]. *)
Definition matchRange (ids : list Z) (off1 : Z) (fuel : nat) (i tup : Z) : res (Z * Z) :=
  whileM fuel
    (fun '(i, tup) => if i <? off1 then let* t := rd ids tup in Ok ((t =? i) && negb (tup =? zlen ids)) else Ok false)
    (fun '(i, tup) => Ok (i + 1, tup + 1)) (i, tup).
Definition findIdsRangesInListOfIds (d : da Z) (listOfIds : option (da Z)) : res (list Z * list Z) :=
  match listOfIds with
  | None => Throw
  | Some li =>
    checkAllocated li (checkAllocated d (checkOneComp li (checkOneComp d (
    let ids := da_vals li in let off := da_vals d in
    let tupEnd := zlen ids in let offEnd := zlen off - 1 in
    let* (_, _, ret0, ret1) := whileM (Datatypes.S (length ids + length off))
      (fun '(tup, offp, _, _) => Ok (negb (tup =? tupEnd) && negb (offp =? offEnd)))
      (fun '(tup, offp, ret0, ret1) =>
        let* t := rd ids tup in
        let* o := rd off offp in
        if t =? o then
          let* o1 := rd off (offp + 1) in
          let* (i, tup) := matchRange ids o1 (Datatypes.S (length ids + 1)) o tup in
          if i =? o1
          then ub_if (tup - (o1 - o) <? 0) || (zlen ids <? tup) >>>
               Ok (tup, offp + 1, ret0 ++ [offp], ret1 ++ take (Z.to_nat (o1 - o)) (drop (Z.to_nat (tup - (o1 - o))) ids))
          else Ok (tup, offp, ret0, ret1)
        else if t <? o then Ok (tup + 1, offp, ret0, ret1)
        else Ok (tup, offp + 1, ret0, ret1)) (0, 0, [], []) in
    Ok (ret0, ret1)))))
  end.

(** MEDCouplingMemArray.txx 6888-6942. *)
Definition buildExplicitArrByRanges (d : da Z) (offsets : option (da Z)) : res (list (option Z)) :=
  match offsets with
  | None => Throw
  | Some o =>
    checkAllocated d (checkOneComp d (checkAllocated o (checkOneComp o (
    let othNbTuples := da_nt o - 1 in
    let* n := foldM (fun n val =>
      if (0 <=? val) && (val <? othNbTuples) then
        let* b := rd (da_vals o) (val + 1) in
        let* a := rd (da_vals o) val in
        throw_if b - a <? 0 >>> Ok (n + (b - a))
      else Throw) (da_vals d) 0 in
    let* ret := alloc Z n 1 in
    let* (_, ret) := foldM (fun '(p, ret) val =>
      let* start := rd (da_vals o) val in
      let* b := rd (da_vals o) (val + 1) in
      forZ 0 (b - start) (fun j '(p, ret) => let* ret := wrc ret p (start + j) in Ok (p + 1, ret)) (p, ret))
      (da_vals d) (0, ret) in
    Ok ret))))
  end.

(** MEDCouplingMemArray.txx 6966-7016. *)
Definition buildExplicitArrOfSliceOnScaledArr (d : da Z) (bg stop step : Z) : res (list (option Z)) :=
  throw_if negb (da_alloc d) >>>
  throw_if negb (da_nc d =? 1) >>>
  let nb := da_nt d in
  throw_if nb =? 0 >>>
  let* nbSlc := GetNumberOfItemGivenBESRelative bg stop step in
  let* (sz, _) := forZ 0 nbSlc (fun _ '(sz, pos) =>
    if (0 <=? pos) && (pos <? nb - 1) then
      let* b := rd (da_vals d) (pos + 1) in
      let* a := rd (da_vals d) pos in
      throw_if b - a <? 0 >>> Ok (sz + (b - a), pos + step)
    else Throw) (0, bg) in
  let* ret := alloc Z sz 1 in
  let* (_, ret, _) := forZ 0 nbSlc (fun _ '(p, ret, pos) =>
    let* b := rd (da_vals d) (pos + 1) in
    let* a := rd (da_vals d) pos in
    let* (p, ret) := forZ 0 (b - a) (fun _ '(p, ret) => let* ret := wrc ret p pos in Ok (p + 1, ret)) (p, ret) in
    Ok (p, ret, pos + step)) (0, ret, bg) in
  Ok ret.

(** The loop on the ranges, MEDCouplingMemArray.txx 7059-7064 and 7121-7126: id of the first range holding [val].
    The loop stops when found; here the remaining turns leave the state unchanged. *)
Definition firstRange (ranges : list Z) (nbOfRanges val : Z) : res (option Z) :=
  forZ 0 nbOfRanges (fun j found =>
    match found with
    | Some _ => Ok found
    | None => let* lo := rd ranges (2 * j) in
              if lo <=? val then let* hi := rd ranges (2 * j + 1) in Ok (if val <? hi then Some j else None) else Ok None
    end) None.
(** MEDCouplingMemArray.txx 7037-7075. *)
Definition findRangeIdForEachTuple (d : da Z) (ranges : option (da Z)) : res (list (option Z)) :=
  match ranges with
  | None => Throw
  | Some r =>
    throw_if negb (da_nc r =? 2) >>>
    checkAllocated d (checkOneComp d (
    let* ret := alloc Z (da_nt d) 1 in
    forZ 0 (da_nt d) (fun i ret =>
      let* val := rd (da_vals d) i in
      let* f := firstRange (da_vals r) (da_nt r) val in
      match f with Some j => wrc ret i j | None => Throw end) ret))
  end.
(** MEDCouplingMemArray.txx 7097-7137. *)
Definition findIdInRangeForEachTuple (d : da Z) (ranges : option (da Z)) : res (list (option Z)) :=
  match ranges with
  | None => Throw
  | Some r =>
    throw_if negb (da_nc r =? 2) >>>
    checkAllocated d (checkOneComp d (
    let* ret := alloc Z (da_nt d) 1 in
    forZ 0 (da_nt d) (fun i ret =>
      let* val := rd (da_vals d) i in
      let* f := firstRange (da_vals r) (da_nt r) val in
      match f with Some j => let* lo := rd (da_vals r) (2 * j) in wrc ret i (val - lo) | None => Throw end) ret))
  end.

(** MEDCouplingMemArray.txx 7764-7795; [accumulate(0)] is the sum of the values (6024-6034). *)
Definition splitInBalancedSlices (d : da Z) (nbOfSlices : Z) : res (list (Z * Z)) :=
  throw_if negb (da_alloc d) || negb (da_nc d =? 1) >>>
  throw_if nbOfSlices <=? 0 >>>
  let sum := foldl Z.add 0 (da_vals d) in
  let nb := da_nt d in
  let sumPerSlc := Z.quot sum nbOfSlices in
  let* (_, ret) := forZ 0 nbOfSlices (fun i '(pos, ret) =>
    let p := pos in
    let* (pos, _) := whileM (Datatypes.S (length (da_vals d)))
      (fun '(pos, locSum) => Ok ((locSum <? sumPerSlc) && (pos <? nb)))
      (fun '(pos, locSum) => let* w := rd (da_vals d) pos in Ok (pos + 1, locSum + w)) (pos, 0) in
    Ok (pos, ret ++ [(p, if negb (i =? nbOfSlices - 1) then pos else nb)])) (0, []) in
  Ok ret.

(** * Indexed arrays *)

(** MEDCouplingMemArray.txx 8568-8584. *)
Definition PutIntoToSkylineFrmt {A} (v : list (list A)) : res (list (option A) * list (option Z)) :=
  let sz := zlen v in
  let* idx := alloc Z (sz + 1) 1 in
  let* idx := wrc idx 0 0 in
  let* (idx, _) := foldM (fun '(idx, p) (x : list A) => let* a := rdc idx p in let* idx := wrc idx (p + 1) (a + zlen x) in Ok (idx, p + 1)) v (idx, 0) in
  let* n := rdc idx sz in
  let* dat := alloc A n 1 in
  let* (dat, _) := foldM (fun '(dat, p) (x : list A) => let* dat := copyc x 0 (zlen x) dat p in Ok (dat, p + zlen x)) v (dat, 0) in
  Ok (dat, idx).

(** MEDCouplingMemArray.txx 8603-8677 (the null pointers are [None]). *)
Definition ExtractFromIndexedArrays {A} (ids : list Z) (arrIn : option (da A)) (arrIndxIn : option (da Z)) : res (list (option A) * list (option Z)) :=
  match arrIn, arrIndxIn with
  | Some d, Some x =>
    checkAllocated d (checkAllocated x (
    throw_if negb (da_nc d =? 1) || negb (da_nc x =? 1) >>>
    let sz := zlen ids in
    let nbOfGrps := da_nt x - 1 in
    throw_if nbOfGrps <? 0 >>>
    let maxSizeOfArr := da_nt d in
    let* io := alloc Z (sz + 1) 1 in
    let* io := wrc io 0 0 in
    let* (io, _, lgth) := foldM (fun '(io, w, lgth) id =>
      let* lgth := if (0 <=? id) && (id <? nbOfGrps)
                   then let* b := rd (da_vals x) (id + 1) in let* a := rd (da_vals x) id in Ok (lgth + (b - a))
                   else Throw in
      let* prev := rdc io (w - 1) in
      if prev <=? lgth then let* io := wrc io w lgth in Ok (io, w + 1, lgth) else Throw) ids (io, 1, 0) in
    let* o := alloc A lgth 1 in
    let* (o, _) := foldM (fun '(o, p) id =>
      let* a := rd (da_vals x) id in
      let* b := rd (da_vals x) (id + 1) in
      if (0 <=? a) && (b <=? maxSizeOfArr) then let* o := copyc (da_vals d) a b o p in Ok (o, p + (b - a)) else Throw) ids (o, 0) in
    Ok (o, io)))
  | _, _ => Throw
  end.

(** MEDCouplingMemArray.txx 8871-8951. *)
Definition ExtractFromIndexedArraysSlice {A} (start stop step : Z) (arrIn : option (da A)) (arrIndxIn : option (da Z)) : res (list (option A) * list (option Z)) :=
  match arrIn, arrIndxIn with
  | Some d, Some x =>
    checkAllocated d (checkAllocated x (
    throw_if negb (da_nc d =? 1) || negb (da_nc x =? 1) >>>
    let* sz := GetNumberOfItemGivenBESRelative start stop step in
    let nbOfGrps := da_nt x - 1 in
    throw_if nbOfGrps <? 0 >>>
    let maxSizeOfArr := da_nt d in
    let* io := alloc Z (sz + 1) 1 in
    let* io := wrc io 0 0 in
    let* (io, _, lgth, _) := forZ 0 sz (fun _ '(io, w, lgth, id) =>
      let* lgth := if (0 <=? id) && (id <? nbOfGrps)
                   then let* b := rd (da_vals x) (id + 1) in let* a := rd (da_vals x) id in Ok (lgth + (b - a))
                   else Throw in
      let* prev := rdc io (w - 1) in
      if prev <=? lgth then let* io := wrc io w lgth in Ok (io, w + 1, lgth, id + step) else Throw) (io, 1, 0, start) in
    let* o := alloc A lgth 1 in
    let* (o, _, _) := forZ 0 sz (fun _ '(o, p, id) =>
      let* a := rd (da_vals x) id in
      let* b := rd (da_vals x) (id + 1) in
      if (0 <=? a) && (b <=? maxSizeOfArr) then let* o := copyc (da_vals d) a b o p in Ok (o, p + (b - a), id + step) else Throw) (o, 0, start) in
    Ok (o, io)))
  | _, _ => Throw
  end.

(** MEDCouplingMemArray.txx 8974-9035.  No check on allocation nor on the number of components: the arguments are the
    values of the arrays (one component).  [srcArrIndexPtr] is a position in srcArrIndex. *)
Definition SetPartOfIndexedArrays {A} (ids : list Z) (arr : list A) (idx : list Z) (src : list A) (srcIdx : list Z)
  : res (list (option A) * list (option Z)) :=
  let nb := zlen idx - 1 in
  throw_if nb <? 0 >>>  (* std::vector<bool>(-1,true) throws length_error *)
  let* (v, offset, _) := foldM (fun '(v, offset, s) it =>
    if (0 <=? it) && (it <? nb) then
      let* v := wr v it false in
      let* s1 := rd srcIdx (s + 1) in let* s0 := rd srcIdx s in
      let* b := rd idx (it + 1) in let* a := rd idx it in
      Ok (v, offset + ((s1 - s0) - (b - a)), s + 1)
    else Throw) ids (replicate (Z.to_nat nb) true, 0, 0) in
  let* io := alloc Z (nb + 1) 1 in
  let* o := alloc A (zlen arr + offset) 1 in
  let* io := wrc io 0 0 in
  let* (o, _, io) := forZ 0 nb (fun ii '(o, p, io) =>
    let* keep := rd v ii in
    if keep : bool then
      let* a := rd idx ii in let* b := rd idx (ii + 1) in
      let* o := copyc arr a b o p in
      let* prev := rdc io ii in
      let* io := wrc io (ii + 1) (prev + (b - a)) in
      Ok (o, p + (b - a), io)
    else
      let pos := find_if (fun x => x =? ii) ids in
      let* a := rd srcIdx pos in let* b := rd srcIdx (pos + 1) in
      let* o := copyc src a b o p in
      let* prev := rdc io ii in
      let* io := wrc io (ii + 1) (prev + (b - a)) in
      Ok (o, p + (b - a), io)) (o, 0, io) in
  Ok (o, io).

(** MEDCouplingMemArray.txx 9059-9120. *)
Definition SetPartOfIndexedArraysSlice {A} (start stop step : Z) (arr : list A) (idx : list Z) (src : list A) (srcIdx : list Z)
  : res (list (option A) * list (option Z)) :=
  let nb := zlen idx - 1 in
  let* nbSet := GetNumberOfItemGivenBESRelative start stop step in
  let* (offset, _) := forZ 0 nbSet (fun i '(offset, it) =>
    if (0 <=? it) && (it <? nb) then
      let* s1 := rd srcIdx (i + 1) in let* s0 := rd srcIdx i in
      let* b := rd idx (it + 1) in let* a := rd idx it in
      Ok (offset + ((s1 - s0) - (b - a)), it + step)
    else Throw) (0, start) in
  let* io := alloc Z (nb + 1) 1 in
  let* o := alloc A (zlen arr + offset) 1 in
  let* io := wrc io 0 0 in
  let* (o, _, io) := forZ 0 nb (fun ii '(o, p, io) =>
    let pos := GetPosOfItemGivenBESRelativeNoThrow ii start stop step in
    if pos <? 0 then
      let* a := rd idx ii in let* b := rd idx (ii + 1) in
      let* o := copyc arr a b o p in
      let* prev := rdc io ii in
      let* io := wrc io (ii + 1) (prev + (b - a)) in
      Ok (o, p + (b - a), io)
    else
      let* a := rd srcIdx pos in let* b := rd srcIdx (pos + 1) in
      let* o := copyc src a b o p in
      let* prev := rdc io ii in
      let* io := wrc io (ii + 1) (prev + (b - a)) in
      Ok (o, p + (b - a), io)) (o, 0, io) in
  Ok (o, io).

(** std::copy inside initialised arrays: [dst[d..]] receives [src[a..b)]. *)
Definition copyv {A} (src : list A) (a b : Z) (dst : list A) (d : Z) : res (list A) :=
  ub_if b <? a >>> forZ 0 (b - a) (fun k dst => let* x := rd src (a + k) in wr dst (d + k) x) dst.
(** MEDCouplingMemArray.txx 9139-9182: the values of arrInOut afterwards. *)
Definition SetPartOfIndexedArraysSameIdx {A} (ids : list Z) (arr : list A) (idx : list Z) (src : list A) (srcIdx : list Z) : res (list A) :=
  let nb := zlen idx - 1 in
  let* (arr, _) := foldM (fun '(arr, s) it =>
    if (0 <=? it) && (it <? nb) then
      let* s1 := rd srcIdx (s + 1) in let* s0 := rd srcIdx s in
      let* b := rd idx (it + 1) in let* a := rd idx it in
      if s1 - s0 =? b - a then let* arr := copyv src s0 s1 arr a in Ok (arr, s + 1) else Throw
    else Throw) ids (arr, 0) in
  Ok arr.

(** MEDCouplingMemArray.txx 9201-9246. *)
Definition SetPartOfIndexedArraysSameIdxSlice {A} (start stop step : Z) (arr : list A) (idx : list Z) (src : list A) (srcIdx : list Z) : res (list A) :=
  let nb := zlen idx - 1 in
  let* nbSet := GetNumberOfItemGivenBESRelative start stop step in
  let* (arr, _) := forZ 0 nbSet (fun i '(arr, it) =>
    if (0 <=? it) && (it <? nb) then
      let* s1 := rd srcIdx (i + 1) in let* s0 := rd srcIdx i in
      let* b := rd idx (it + 1) in let* a := rd idx it in
      if s1 - s0 =? b - a then let* arr := copyv src s0 s1 arr a in Ok (arr, it + step) else Throw
    else Throw) (arr, start) in
  Ok arr.

(** MEDCouplingMemArray.txx 9263-9300: (returned flag, values of arr, values of arrIndx) afterwards; [None] is a null pointer.
    The inner loop [work != arrPtr + *arrIPtr] is entered only when there is room before the end, hence the [<]. *)
Definition RemoveIdsFromIndexedArrays (idsToRemove : list Z) (arr : option (list Z)) (arrIndx : option (list Z)) (offset : Z)
  : res (bool * list Z * list Z) :=
  match arr, arrIndx with
  | Some arr, Some idx =>
    throw_if offset <? 0 >>>
    let s := set_of idsToRemove in
    let nb := zlen idx - 1 in
    let* idx := wr idx 0 0 in
    let* (out, idx, _) := forZ 0 nb (fun i '(out, idx, prev) =>
      let* e := rd idx (i + 1) in
      let* out := if offset <? e - prev
        then forZ (prev + offset) e (fun w out => let* v := rd arr w in Ok (if negb (smem v s) then out ++ [v] else out)) out
        else Ok out in
      let* idx := wr idx (i + 1) (zlen out) in
      Ok (out, idx, e)) ([], idx, 0) in
    if zlen arr =? zlen out then Ok (false, arr, idx) else Ok (true, out, idx)
  | _, _ => Throw
  end.

(** * Aggregation *)

(** MEDCouplingMemArray.txx 8338-8352. *)
Definition Aggregate2 {A} (a1 a2 : option (da A)) (offsetA2 : Z) : res (da (option A)) :=
  match a1, a2 with
  | Some a1, Some a2 =>
    let nc := da_nc a1 in
    throw_if negb (nc =? da_nc a2) >>>
    let* ret := alloc A (da_nt a1 + da_nt a2 - offsetA2) nc in
    let* ret := copyc (da_vals a1) 0 (zlen (da_vals a1)) ret 0 in
    let* ret := copyc (da_vals a2) (offsetA2 * nc) (da_nt a2 * nc) ret (zlen (da_vals a1)) in
    Ok (DA true nc ret)
  | _, _ => Throw
  end.
(** MEDCouplingMemArray.txx 8371-8397. *)
Definition Aggregate {A} (arr : list (option (da A))) : res (da (option A)) :=
  match omap id arr with
  | [] => Throw
  | d0 :: rest =>
    let nc := da_nc d0 in
    let* nbt := foldM (fun nbt d => throw_if negb (da_nc d =? nc) >>> Ok (nbt + da_nt d)) rest (da_nt d0) in
    let* ret := alloc A nbt nc in
    let* (ret, _) := foldM (fun '(ret, p) d =>
      let* ret := copyc (da_vals d) 0 (zlen (da_vals d)) ret p in Ok (ret, p + zlen (da_vals d))) (d0 :: rest) (ret, 0) in
    Ok (DA true nc ret)
  end.
(** MEDCouplingMemArray.txx 8410-8465.  In the std::transform of 8460 the value pt[-1] is taken before the call. *)
Definition AggregateIndexes (arrs : list (option (da Z))) : res (list (option Z)) :=
  let* retSz := foldM (fun retSz o =>
    match o with
    | None => Throw
    | Some d => checkAllocated d (
                throw_if negb (da_nc d =? 1) >>>
                throw_if da_nt d <? 1 >>>
                let* f := rd (da_vals d) 0 in
                throw_if negb (f =? 0) >>> Ok (retSz + (da_nt d - 1)))
    end) arrs 1 in
  throw_if (match arrs with [] => true | _ => false end) >>>
  let* ret := alloc Z retSz 1 in
  let* ret := wrc ret 0 0 in
  let* (ret, _) := foldM (fun '(ret, p) o =>
    match o with
    | None => UB
    | Some d =>
      let* s := rdc ret (p - 1) in
      forZ 1 (da_nt d) (fun k '(ret, p) => let* v := rd (da_vals d) k in let* ret := wrc ret p (v + s) in Ok (ret, p + 1)) (ret, p)
    end) arrs (ret, 1) in
  Ok ret.

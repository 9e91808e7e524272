(** Groups and families, grouping of values, surjective formats, pairs and chains of pairs. *)
From Verif Require Import Base DataArray StdModel.

(** ** MakePartition, MEDCouplingMemArray.txx 9433-9524. *)

(** Lines 9456-9475, one group: [signatures[e][word] |= bit] for every element.  Words are 64-bit; [i mod 64 < 64] so that the
    bit is always representable.  [begin]/[end] of an unallocated array delimit no value, whatever the number of components. *)
Definition markGroup (newNb i : Z) (g : list Z) (sigs : list (list Z)) : res (list (list Z)) :=
  foldM (fun sigs e =>
    if (0 <=? e) && (e <? newNb)
    then let* s := rd sigs e in
         let* w := rd s (i / 64) in
         let* s := wr s (i / 64) (Z.lor w (Z.shiftl 1 (i mod 64))) in
         wr sigs e s
    else Throw) g sigs.
(** The std::unordered_map of line 9492: what [find] returns depends on the equality of the keys only. *)
Fixpoint sigFind (s : list Z) (m : list (list Z * Z)) : option Z :=
  match m with [] => None | (s', id) :: m' => if decide (s = s') then Some id else sigFind s m' end.
(** [None] is a null pointer.  The counter of the loop of line 9497 is an [int]: its increment overflows when newNb exceeds
    INT_MAX (mcIdType is 64-bit). *)
Definition MakePartition (groups : list (option (da Z))) (newNb : Z) : res (list (option Z) * list (list Z)) :=
  let groups2 := omap id groups in
  let* ret := alloc Z newNb 1 in
  let ret := (fun _ => Some 0) <$> ret in
  let M := zlen groups2 in
  let* (sigs, _) := foldM (fun '(sigs, i) g => let* sigs := markGroup newNb i (da_vals g) sigs in Ok (sigs, i + 1)) groups2
    (replicate (Z.to_nat newNb) (replicate (Z.to_nat ((M + 63) / 64)) 0), 0) in
  ub_if 2147483647 <? newNb >>>
  let* (ret, _, _) := forZ 0 newNb (fun e '(ret, m, next) =>
    let* s := rd sigs e in
    match sigFind s m with
    | None => let* ret := wrc ret e next in Ok (ret, (s, next) :: m, next + 1)
    | Some id => let* ret := wrc ret e id in Ok (ret, m, next)
    end) (ret, [], 1) in
  let* fids := foldM (fun fids g =>
    let* tmp := foldM (fun tmp p => let* f := rdc ret p in Ok (sins f tmp)) (da_vals g) [] in Ok (fids ++ [tmp])) groups2 [] in
  Ok (ret, fids).

(** ** partitionByDifferentValues, MEDCouplingMemArray.txx 7721-7748: (the arrays returned, differentIds).  [m[k]++] creates
    the entry with 0. *)
Definition mincr (k : Z) (m : list (Z * Z)) : list (Z * Z) := mset k (default 0 (mget k m) + 1) m.
Definition partitionByDifferentValues (d : da Z) : res (list (list (option Z)) * list Z) :=
  checkAllocated d (checkOneComp d (
  let m := foldl (fun m w => mincr w m) [] (da_vals d) in
  let* (m2, ret, differentIds, _) := foldM (fun '(m2, ret, dif, id) '(k, n) =>
    let* a := alloc Z n 1 in
    Ok (mset k id m2, ret ++ [a], dif ++ [k], id + 1)) m ([], [], [], 0) in
  let* (ret, _, _) := foldM (fun '(ret, m3, id) w =>
    let k := default 0 (mget w m2) in
    let* a := rd ret k in
    let* a := wrc a (default 0 (mget w m3)) id in
    let* ret := wr ret k a in
    Ok (ret, mincr w m3, id + 1)) (da_vals d) (ret, [], 0) in
  Ok (ret, differentIds))).

(** ** changeSurjectiveFormat, MEDCouplingMemArray.txx 5359-5396: (arr, arrI).  A vector of negative size is refused by the
    standard library (std::length_error). *)
Definition changeSurjectiveFormat (d : da Z) (targetNb : Z) : res (list (option Z) * list (option Z)) :=
  checkAllocated d (checkOneComp d (
  throw_if targetNb <? 0 >>>
  let* tmp := forZ 0 (da_nt d) (fun i tmp =>
    let* v := rd (da_vals d) i in
    if (0 <=? v) && (v <? targetNb) then let* t := rd tmp v in wr tmp v (t ++ [i]) else Throw)
    (replicate (Z.to_nat targetNb) []) in
  let* retI := alloc Z (targetNb + 1) 1 in
  let* retI := wrc retI 0 0 in
  let* (retI, _) := foldM (fun '(retI, p) t => let* a := rdc retI p in let* retI := wrc retI (p + 1) (a + zlen t) in Ok (retI, p + 1)) tmp (retI, 0) in
  let* last := rdc retI targetNb in
  throw_if negb (da_nt d =? last) >>>
  let* ret := alloc Z (da_nt d) 1 in
  let* (ret, _) := foldM (fun '(ret, p) t => let* ret := copyc t 0 (zlen t) ret p in Ok (ret, p + zlen t)) tmp (ret, 0) in
  Ok (ret, retI))).

(** ** ConvertIndexArrayToO2N, MEDCouplingMemArray.txx 9362-9405: (the array, newNbOfTuples). *)
Definition ConvertIndexArrayToO2N (nbOld : Z) (arr arrI : list Z) : res (list (option Z) * Z) :=
  let* ret := alloc Z nbOld 1 in
  let pt := (fun _ => -1) <$> ret in
  let nbOfGrps := zlen arrI - 1 in
  let* pt := forZ 0 nbOfGrps (fun i pt => let* a := rd arrI i in let* x := rd arr a in wr pt x (- (i + 2))) pt in
  let* (pt, newNb) := forZ 0 nbOld (fun iNode '(pt, newNb) =>
    let* v := rd pt iNode in
    if v <? 0 then
      if v =? -1 then let* pt := wr pt iNode newNb in Ok (pt, newNb + 1)
      else
        let grp := - (v + 2) in
        let* b := rd arrI grp in
        let* e := rd arrI (grp + 1) in
        let* pt := forZ b e (fun j pt =>
          let* x := rd arr j in
          if (0 <=? x) && (x <? nbOld) then wr pt x newNb else Throw) pt in
        Ok (pt, newNb + 1)
    else Ok (pt, newNb)) (pt, 0) in
  Ok (Some <$> pt, newNb).

(** ** fromListOfPairsToIndexArray, MEDCouplingMemArray.txx 7619-7709: (arrOut, arrIndexOut). *)
Fixpoint merase {V} (k : Z) (m : list (Z * V)) : list (Z * V) :=
  match m with [] => [] | (k', v) :: m' => if k =? k' then m' else (k', v) :: merase k m' end.
(** Lines 7631-7655. *)
Definition addPair (ws : list (Z * list Z)) (a b : Z) : list (Z * list Z) :=
  let zeMin := Z.min a b in let zeMax := Z.max a b in
  match mget zeMin ws with
  | Some s => mset zeMin (sins zeMax s) ws
  | None =>
    match mget zeMax ws with
    | None => mset zeMin (set_of [zeMin; zeMax]) ws
    | Some s => mset zeMin (sins zeMin s) (merase zeMax ws)
    end
  end.
(** Lines 7663-7673: the group of the first element already in a group. *)
Fixpoint firstGroup (s : list Z) (zeMap : list (Z * Z)) : option Z :=
  match s with [] => None | x :: s' => match mget x zeMap with Some g => Some g | None => firstGroup s' zeMap end end.
Definition setAll (s : list Z) (g : Z) (zeMap : list (Z * Z)) : list (Z * Z) := foldl (fun m x => mset x g m) zeMap s.
(** Lines 7657-7689.  The iterator runs over the keys in order: only the current key is erased and none is added, so that the
    keys visited are those present at the beginning.  Dereferencing the end of the map is undefined. *)
Definition mergeGroups (ws : list (Z * list Z)) : res (list (Z * list Z)) :=
  let* (ws, _) := foldM (fun '(ws, zeMap) k =>
    match mget k ws with
    | None => UB
    | Some s =>
      match firstGroup s zeMap with
      | None => Ok (ws, setAll s k zeMap)
      | Some g =>
        match mget g ws with
        | None => UB
        | Some t => Ok (merase k (mset g (sins_all s t) ws), setAll s g zeMap)
        end
      end
    end) (ws.*1) (ws, []) in
  Ok ws.
Definition fromListOfPairsToIndexArray (d : da Z) : res (list (option Z) * list (option Z)) :=
  checkAllocated d (
  throw_if negb (da_nc d =? 2) >>>
  let* ws := forZ 0 (da_nt d) (fun i ws =>
    let* a := rd (da_vals d) (2 * i) in let* b := rd (da_vals d) (2 * i + 1) in Ok (addPair ws a b)) [] in
  let* ws := mergeGroups ws in
  let* idx := alloc Z (zlen ws + 1) 1 in
  let* idx := wrc idx 0 0 in
  let* (idx, p) := foldM (fun '(idx, p) '(_, s) => let* a := rdc idx p in let* idx := wrc idx (p + 1) (a + zlen s) in Ok (idx, p + 1)) ws (idx, 0) in
  let* n := rdc idx p in
  let* out := alloc Z n 1 in
  let* (out, _) := foldM (fun '(out, p) '(_, s) => let* out := copyc s 0 (zlen s) out p in Ok (out, p + zlen s)) ws (out, 0) in
  Ok (out, idx)).

(** ** Chains of pairs. *)

(** sortEachPairToMakeALinkedList, MEDCouplingMemArray.txx 7155-7232: the values afterwards.  [c] is the position of [conn].
    std::count and the size of the std::set on the four values are computed on the list of these values. *)
Definition cnt4 (l : list Z) (x : Z) : Z := zlen (filter (fun y => y = x) l).
Definition sortEachPairToMakeALinkedList (d : da Z) : res (list Z) :=
  checkAllocated d (
  throw_if negb (da_nc d =? 2) >>>
  if da_nt d <=? 1 then Ok (da_vals d) else
  forZ 1 (da_nt d) (fun i v =>
    let c := 2 * (i - 1) in
    let* c0 := rd v c in let* c1 := rd v (c + 1) in let* c2 := rd v (c + 2) in let* c3 := rd v (c + 3) in
    if 1 <? i then
      throw_if c2 =? c3 >>>
      throw_if negb (c2 =? c1) && negb (c3 =? c1) >>>
      let sw := negb (c2 =? c1) && (c3 =? c1) && negb (c2 =? c0) in
      let* v := (if sw then let* v := wr v (c + 2) c3 in wr v (c + 3) c2 else Ok v) in
      let* c2 := rd v (c + 2) in let* c3 := rd v (c + 3) in
      throw_if negb (c2 =? c1) || (c3 =? c1) || (c3 =? c0) >>>
      Ok v
    else
      throw_if (c0 =? c1) || (c2 =? c3) >>>
      throw_if negb (zlen (set_of [c0; c1; c2; c3]) =? 3) >>>
      if cnt4 [c0; c1; c2; c3] c0 =? 2 then
        let* v := wr v c c1 in let* v := wr v (c + 1) c0 in let* v := wr v (c + 2) c0 in
        wr v (c + 3) (if c2 =? c0 then c3 else c2)
      else if c1 =? c3 then let* v := wr v (c + 2) c3 in wr v (c + 3) c2
      else Ok v) (da_vals d)).

(** PairAggregator, MEDCouplingMemArray.txx 7237-7296: [_data] is the list of pairs.  [front]/[back] of an empty list are
    undefined. *)
Definition paFront (c : list (Z * Z)) : res Z := let* p := rd c 0 in Ok p.1.
Definition paBack (c : list (Z * Z)) : res Z := let* p := rd c (zlen c - 1) in Ok p.2.
Definition paReverse (c : list (Z * Z)) : list (Z * Z) := (fun p => (p.2, p.1)) <$> rev c.
(** tryToAggregate, 7241-7266: [None] is false. *)
Definition tryToAggregate (c o : list (Z * Z)) : res (option (list (Z * Z))) :=
  let* cb := paBack c in let* of := paFront o in
  if cb =? of then Ok (Some (c ++ o)) else
  let* cf := paFront c in let* ob := paBack o in
  if cf =? ob then Ok (Some (o ++ c)) else
  if cf =? of then Ok (Some (paReverse o ++ c)) else
  if cb =? ob then Ok (Some (c ++ paReverse o)) else
  Ok None.
(** findMaxLengthLines, 7300-7330.  Lines 7314-7325: the chains after [base] that [base] does not absorb; the flag is
    mergeOpDone. *)
Fixpoint absorb (base : list (Z * Z)) (l : list (list (Z * Z))) : res (list (Z * Z) * list (list (Z * Z)) * bool) :=
  match l with
  | [] => Ok (base, [], false)
  | o :: l' =>
    let* t := tryToAggregate base o in
    match t with
    | Some b => let* (b, r, _) := absorb b l' in Ok (b, r, true)
    | None => let* (b, r, m) := absorb base l' in Ok (b, o :: r, m)
    end
  end.
(** Lines 7308-7327. *)
Fixpoint sweep (fuel : nat) (tab : list (list (Z * Z))) : res (list (list (Z * Z)) * bool) :=
  match fuel with
  | O => Fuel
  | S f =>
    match tab with
    | [] => Ok ([], false)
    | base :: l =>
      let* (b, r, m) := absorb base l in
      let* (r, m') := sweep f r in
      Ok (b :: r, m || m')
    end
  end.
Fixpoint findMaxLengthLines (fuel : nat) (tab : list (list (Z * Z))) : res (list (list (Z * Z))) :=
  match fuel with
  | O => Fuel
  | S f => let* (tab, m) := sweep (Datatypes.S (length tab)) tab in if m : bool then findMaxLengthLines f tab else Ok tab
  end.
Definition paFill (c : list (Z * Z)) : list Z := c ≫= (fun p => [p.1; p.2]).
(** Lines 7354-7357. *)
Definition initPairs (d : da Z) : res (list (list (Z * Z))) :=
  forZ 0 (da_nt d) (fun i l => let* a := rd (da_vals d) (2 * i) in let* b := rd (da_vals d) (2 * i + 1) in Ok (l ++ [[(a, b)]])) [].
(** sortToHaveConsecutivePairs, 7341-7373: the values afterwards ([fill] writes as many values as there were). *)
Definition sortToHaveConsecutivePairs (d : da Z) : res (list Z) :=
  checkAllocated d (
  throw_if negb (da_nc d =? 2) >>>
  if da_nt d =? 0 then Ok (da_vals d) else
  let* l := initPairs d in
  let* l := findMaxLengthLines (Datatypes.S (length l)) l in
  match l with [c] => Ok (paFill c) | _ => Throw end).
(** splitPairsIntoChains, 7382-7414: the values of every array returned. *)
Definition splitPairsIntoChains (d : da Z) : res (list (list Z)) :=
  checkAllocated d (
  throw_if negb (da_nc d =? 2) >>>
  if da_nt d =? 0 then Ok [] else
  let* l := initPairs d in
  let* l := findMaxLengthLines (Datatypes.S (length l)) l in
  Ok (paFill <$> l)).

(** fromLinkedListOfPairToList, MEDCouplingMemArray.txx 7423-7451. *)
Definition fromLinkedListOfPairToList (d : da Z) : res (list (option Z)) :=
  checkAllocated d (
  throw_if negb (da_nc d =? 2) >>>
  let nb := da_nt d in
  throw_if nb <? 1 >>>
  let* ret := alloc Z (nb + 1) 1 in
  let* x := rd (da_vals d) 0 in
  let* ret := wrc ret 0 x in
  forZ 0 nb (fun i ret =>
    let* y := rd (da_vals d) (2 * i + 1) in
    let* ret := wrc ret (i + 1) y in
    if i <? nb - 1
    then let* z := rd (da_vals d) (2 * (i + 1)) in throw_if negb (y =? z) >>> Ok ret
    else Ok ret) ret).

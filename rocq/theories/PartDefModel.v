(** MEDCouplingPartDefinition.cxx: slices and lists of ids. *)
From Verif Require Import Base DataArray StdModel SlicesModel RenumModel IndexModel SkyModel.

(** SlicePartDefinition: _start, _stop, _step; DataArrayPartDefinition: the array pointed by _arr, never null
    after the constructor (lines 225-230).  Sharing of the array and reference counts are not modelled here. *)
Inductive part := PSlice (start stop step : Z) | PList (arr : da Z).

(** CheckInternalArrayOK, lines 239-246, and the constructor 225-230. *)
Definition checkArr {A} (d : da Z) (k : res A) : res A := throw_if negb (da_alloc d) || negb (da_nc d =? 1) >>> k.
Definition newList (d : da Z) : res part := checkArr d (Ok (PList d)).
(** checkConsistencyLight, lines 180-183 and 371-373. *)
Definition checkLight {A} (p : part) (k : res A) : res A := match p with PSlice _ _ _ => k | PList d => checkArr d k end.

(** toDAI, lines 216-222 and 324-327. *)
Definition toDAI (p : part) : res (da Z) :=
  match p with
  | PSlice b e s => let* l := Range b e s in let* l := initialised l in Ok (vec l)
  | PList d => checkArr d (Ok d)
  end.
(** deepCopy, lines 100-106 and 318-321. *)
Definition deepCopy (p : part) : res part := match p with PSlice b e s => Ok (PSlice b e s) | PList d => newList d end.
(** getNumberOfElems, lines 109-113 and 330-333. *)
Definition getNumberOfElems (p : part) : res Z :=
  match p with PSlice b e s => GetNumberOfItemGivenBES b e s | PList d => checkArr d (Ok (da_nt d)) end.
(** tryToSimplify, lines 191-205 and 381-386. *)
Definition tryToSimplify (p : part) : res part :=
  match p with
  | PSlice _ _ _ => Ok p
  | PList d => checkArr d (let* r := isRange d in match r with Some (a, b, c) => Ok (PSlice a b c) | None => Ok p end)
  end.
(** isEqual, lines 68-97 and 295-315; the names and component infos of the arrays are not modelled. *)
Definition isEqual (p q : part) : bool :=
  match p, q with
  | PSlice b e s, PSlice b' e' s' => (b =? b') && (e =? e') && (s =? s')
  | PList d, PList d' => Bool.eqb (da_alloc d) (da_alloc d') && (da_nc d =? da_nc d') && bool_decide (da_vals d = da_vals d')
  | _, _ => false
  end.

(** serialize, lines 208-213 and 389-394: both vectors are appended to. *)
Definition serialize (p : part) (tiny : list Z) (big : list (da Z)) : list Z * list (da Z) :=
  match p with PSlice b e s => (tiny ++ [b; e; s], big) | PList d => (tiny, big ++ [d]) end.
(** Unserialize, lines 41-57. *)
Definition Unserialize (tiny : list Z) (big : list (da Z)) : res (part * list Z * list (da Z)) :=
  if zlen tiny =? 0 then
    let* d := rd big (zlen big - 1) in
    let* p := newList d in
    Ok (p, tiny, take (Z.to_nat (zlen big - 1)) big)
  else if zlen tiny =? 3 then
    let* a := rd tiny 0 in let* b := rd tiny 1 in let* c := rd tiny 2 in
    Ok (PSlice a b c, drop 3 tiny, big)
  else Throw.

(** The merge of add1/add2, lines 269-275, 278-284, 445-451 and 462-465 (DataArray::sort on one component). *)
Definition mergeSorted (p q : part) : res part :=
  let* a1 := toDAI p in let* a2 := toDAI q in
  let* a3 := Aggregate2 (Some a1) (Some a2) 0 in
  let* l := initialised (da_vals a3) in
  newList (DA true (da_nc a3) (sort l)).
(** getEffectiveStop, lines 405-409. *)
Definition getEffectiveStop (b e s : Z) : res Z := let* n := GetNumberOfItemGivenBES b e s in Ok (b + n * s).
(** operator+, lines 116-128 and 336-348 with add2 of slices 454-467. *)
Definition add (p q : part) : res part :=
  match p, q with
  | PSlice b e s, PSlice b' e' s' =>
    let* shortcut := (if s =? s' then let* x := getEffectiveStop b e s in Ok (x =? b') else Ok false) in
    if shortcut : bool then Ok (PSlice b e' s) else mergeSorted p q
  | _, _ => mergeSorted p q
  end.

(** composeWith, lines 149-177 and 356-365. *)
Definition composeWith (p q : part) : res part :=
  checkLight p (checkLight q (
  match p with
  | PList d =>
    let general := (let* a1 := toDAI q in
      let* a2 := mySelectByTupleIdSafe a1 (da_vals d) in
      let* l := initialised (da_vals a2) in newList (DA true (da_nc a2) l)) in
    match q with
    | PSlice a _ c => if c =? 1 then
        let* arr := alloc Z (da_nt d) 1 in
        let* arr := forZ 0 (zlen (da_vals d)) (fun i arr => let* x := rd (da_vals d) i in wrc arr i (x + a)) arr in
        let* l := initialised arr in newList (vec l)
      else general
    | PList _ => general
    end
  | PSlice b e s =>
    let* a := toDAI q in
    let* a1 := mySelectByTupleIdSafeSlice a b e s in
    let* l := initialised (da_vals a1) in newList (DA true (da_nc a1) l)
  end)).

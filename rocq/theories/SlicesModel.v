(** Slices and ranges: DataArrayTools, Range, isRange. *)
From Verif Require Import Base DataArray.

(** MEDCouplingMemArray.txx 685-702. *)
Definition GetNumberOfItemGivenBES (b e s : Z) : res Z :=
  throw_if e <? b >>>
  if e =? b then Ok 0 else
  throw_if s <=? 0 >>>
  Ok (Z.quot (e - 1 - b) s + 1).

(** MEDCouplingMemArray.txx 706-726. *)
Definition GetNumberOfItemGivenBESRelative (b e s : Z) : res Z :=
  throw_if s =? 0 >>>
  throw_if (e <? b) && (0 <? s) >>>
  throw_if (b <? e) && (s <? 0) >>>
  if negb (b =? e) then Ok (Z.quot (Z.max b e - 1 - Z.min b e) (Z.abs s) + 1) else Ok 0.

(** MEDCouplingMemArray.txx 730-745. *)
Definition GetPosOfItemGivenBESRelativeNoThrow (v b e s : Z) : Z :=
  if s =? 0 then -1 else
  if ((0 <? s) && (b <=? v) && (v <? e)) || ((s <? 0) && (v <=? b) && (e <? v)) then
    let id := Z.quot (v - b) s in
    if b + s * id =? v then id else -1
  else -1.

(** MEDCouplingMemArray.txx 659-681; returns (startSlice, stopSlice). *)
Definition GetSlice (start stop step sliceId nbOfSlices : Z) : res (Z * Z) :=
  throw_if nbOfSlices <=? 0 >>>
  throw_if (sliceId <? 0) || (nbOfSlices <=? sliceId) >>>
  let* nbElems := GetNumberOfItemGivenBESRelative start stop step in
  let m := Z.quot nbElems nbOfSlices in
  let startSlice := start + m * step * sliceId in
  let stopSlice := if sliceId <? nbOfSlices - 1 then start + m * step * (sliceId + 1) else stop in
  Ok (startSlice, stopSlice).

(** MEDCouplingMemArray.txx 9318-9333: alloc then a pointer-bumping loop [for (i=begin; i<end (resp. >); i+=step, ptr++) *ptr=i].
    State of the loop: (i, offset of ptr, buffer).  The fuel is one more than the number of cells: running out
    of it would mean the loop overruns. *)
Definition Range (b e s : Z) : res (list (option Z)) :=
  let* nb := GetNumberOfItemGivenBESRelative b e s in
  let* (_, _, buf) :=
    whileM (Datatypes.S (Datatypes.S (Z.to_nat nb)))
      (fun '(i, _, _) => Ok (if 0 <? s then i <? e else e <? i))
      (fun '(i, p, buf) => let* buf := wrc buf p i in Ok (i + s, p + 1, buf))
      (b, 0, malloc Z nb) in
  Ok buf.

(** The comparison loop of isRange, MEDCouplingMemArray.txx 5050-5052 and 5062-5064 (tmp is carried along). *)
Fixpoint isRangeLoop (l : list Z) (tmp step : Z) : bool :=
  match l with
  | [] => true
  | x :: l' => if x =? tmp then isRangeLoop l' (tmp + step) step else false
  end.

(** MEDCouplingMemArray.txx 5018-5067; [None] is [return false], [Some (strt,sttoopp,stteepp)] is [return true]. *)
Definition isRange (d : da Z) : res (option (Z * Z * Z)) :=
  checkAllocated d (checkOneComp d (
  let nb := da_nt d in
  if nb =? 0 then Ok (Some (0, 0, 1)) else
  let* strt := rd (da_vals d) 0 in
  if nb =? 1 then Ok (Some (strt, strt + 1, 1)) else
  let* last := rd (da_vals d) (nb - 1) in
  if strt =? last then Ok None else
  if strt <? last then
    let stop := last + 1 in
    let a := stop - 1 - strt in
    ub_if nb - 1 =? 0 >>>
    if negb (Z.rem a (nb - 1) =? 0) then Ok None else
    let step := Z.quot a (nb - 1) in
    Ok (if isRangeLoop (da_vals d) strt step then Some (strt, stop, step) else None)
  else
    let stop := last - 1 in
    let a := strt - stop - 1 in
    ub_if nb - 1 =? 0 >>>
    if negb (Z.rem a (nb - 1) =? 0) then Ok None else
    let step := - (Z.quot a (nb - 1)) in
    Ok (if isRangeLoop (da_vals d) strt step then Some (strt, stop, step) else None))).

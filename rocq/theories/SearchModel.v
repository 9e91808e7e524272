(** Searching values and tuples in an array. *)
From Verif Require Import Base DataArray StdModel.

(** MEDCouplingMemArray.hxx 1162-1175.  pushBackSilent is an append (see the MemArray model). *)
Definition findIdsAdv {A} (op : A -> bool) (d : da A) : res (list Z) :=
  checkAllocated d (checkOneComp d (
  forZ 0 (da_nt d) (fun i ret => let* v := rd (da_vals d) i in Ok (if op v then ret ++ [i] else ret)) [])).

(** MEDCouplingMemArray.txx 3525-3562 with the predicates of 3465-3514. *)
Definition findIdsStrictlyNegative (d : da Z) := findIdsAdv (fun v => v <? 0) d.
Definition findIdsGreaterOrEqualTo (val : Z) (d : da Z) := findIdsAdv (fun v => val <=? v) d.
Definition findIdsGreaterThan (val : Z) (d : da Z) := findIdsAdv (fun v => val <? v) d.
Definition findIdsLowerOrEqualTo (val : Z) (d : da Z) := findIdsAdv (fun v => v <=? val) d.
Definition findIdsLowerThan (val : Z) (d : da Z) := findIdsAdv (fun v => v <? val) d.
(** MEDCouplingMemArray.txx 6342-6370. *)
Definition findIdsInRange (vmin vmax : Z) (d : da Z) := findIdsAdv (fun v => (vmin <=? v) && (v <? vmax)) d.
Definition findIdsNotInRange (vmin vmax : Z) (d : da Z) := findIdsAdv (fun v => (v <? vmin) || (vmax <=? v)) d.
(** MEDCouplingMemArray.txx 4819-4835, 5668-5684: own loops of the same shape. *)
Definition findIdsEqual (val : Z) (d : da Z) : res (list Z) :=
  checkAllocated d (checkOneComp d (
  forZ 0 (da_nt d) (fun i ret => let* v := rd (da_vals d) i in Ok (if v =? val then ret ++ [i] else ret)) [])).
Definition findIdsNotEqual (val : Z) (d : da Z) : res (list Z) :=
  checkAllocated d (checkOneComp d (
  forZ 0 (da_nt d) (fun i ret => let* v := rd (da_vals d) i in Ok (if negb (v =? val) then ret ++ [i] else ret)) [])).
(** MEDCouplingMemArray.txx 5743-5759 and 5773-5789: no check on allocation. *)
Definition findIdsEqualList (vals : list Z) (d : da Z) : res (list Z) :=
  checkOneComp d (
  let vals2 := set_of vals in
  forZ 0 (da_nt d) (fun i ret => let* v := rd (da_vals d) i in Ok (if smem v vals2 then ret ++ [i] else ret)) []).
Definition findIdsNotEqualList (vals : list Z) (d : da Z) : res (list Z) :=
  checkOneComp d (
  let vals2 := set_of vals in
  forZ 0 (da_nt d) (fun i ret => let* v := rd (da_vals d) i in Ok (if negb (smem v vals2) then ret ++ [i] else ret)) []).

(** MEDCouplingMemArray.txx 5799-5813. *)
Definition findIdFirstEqual (value : Z) (d : da Z) : res Z :=
  checkAllocated d (checkOneComp d (
  let r := find_if (fun v => v =? value) (da_vals d) in
  Ok (if negb (r =? da_nt d) then r else -1))).
(** MEDCouplingMemArray.txx 5823-5838. *)
Definition findIdFirstEqualAny (vals : list Z) (d : da Z) : res Z :=
  checkAllocated d (checkOneComp d (
  let vals2 := set_of vals in
  let r := find_if (fun v => smem v vals2) (da_vals d) in
  Ok (if negb (r =? da_nt d) then r else -1))).

(** MEDCouplingMemArray.txx 5701-5729; [work] is an offset, [std::search(work,end2,...)] is [work + search (drop work ...)]. *)
Definition findIdsEqualTuple (tupl : list Z) (d : da Z) : res (list Z) :=
  let nc := zlen tupl in
  checkAllocated d (
  throw_if negb (da_nc d =? nc) >>>
  throw_if nc =? 0 >>>
  let n := zlen (da_vals d) in
  let* (_, ret) := whileM (Datatypes.S (length (da_vals d)))
    (fun '(work, _) => Ok (negb (work =? n)))
    (fun '(work, ret) =>
      let work := work + search (drop (Z.to_nat work) (da_vals d)) tupl in
      if negb (work =? n)
      then Ok (work + 1, if Z.rem work nc =? 0 then ret ++ [Z.quot work nc] else ret)
      else Ok (work, ret))
    (0, []) in
  Ok ret).

(** MEDCouplingMemArray.txx 5854-5881.  State: (work, Some r once [return r] has been executed). *)
Definition findIdFirstEqualTuple (tupl : list Z) (d : da Z) : res Z :=
  checkAllocated d (
  let nc := da_nc d in
  throw_if nc =? 0 >>>
  throw_if negb (nc =? zlen tupl) >>>
  let n := zlen (da_vals d) in
  let* (_, ret) := whileM (Datatypes.S (length (da_vals d)))
    (fun '(work, ret) => Ok (match ret with Some _ => false | None => negb (work =? n) end))
    (fun '(work, ret) =>
      let work := work + search (drop (Z.to_nat work) (da_vals d)) tupl in
      if negb (work =? n) then
        if negb (Z.rem work nc =? 0) then Ok (work + 1, ret) else Ok (work, Some (Z.quot work nc))
      else Ok (work, ret))
    (0, None) in
  Ok (default (-1) ret)).

(** MEDCouplingMemArray.txx 5892-5906. *)
Definition findIdSequence (vals : list Z) (d : da Z) : res Z :=
  checkAllocated d (checkOneComp d (
  let loc := search (da_vals d) vals in
  Ok (if negb (loc =? zlen (da_vals d)) then loc else -1))).

(** MEDCouplingMemArray.txx 5919-5942: (returned count, values afterwards). *)
Definition changeValue (oldV newV : Z) (d : da Z) : res (Z * list Z) :=
  checkAllocated d (checkOneComp d (
  if oldV =? newV then Ok (0, da_vals d) else
  forZ 0 (zlen (da_vals d)) (fun i '(ret, vals) =>
    let* v := rd vals i in
    if v =? oldV then let* vals := wr vals i newV in Ok (ret + 1, vals) else Ok (ret, vals)) (0, da_vals d))).

(** MEDCouplingMemArray.txx 5955-5970. *)
Definition countValue (value : Z) (d : da Z) : res Z :=
  checkAllocated d (checkOneComp d (
  forZ 0 (da_nt d) (fun i ret => let* v := rd (da_vals d) i in Ok (if v =? value then ret + 1 else ret)) 0)).

(** MEDCouplingMemArray.txx 6379-6402. *)
Definition checkAllIdsInRange (vmin vmax : Z) (d : da Z) : res bool :=
  checkAllocated d (checkOneComp d (
  forZ 0 (da_nt d) (fun i (ret : bool) =>
    let* v := rd (da_vals d) i in
    if (vmin <=? v) && (v <? vmax) then Ok (ret && (v =? i)) else Throw) true)).

(** The comparison loop of isIota, MEDCouplingMemArray.txx 5477-5480. *)
Fixpoint iotaLoop (i : Z) (l : list Z) : bool :=
  match l with [] => true | x :: l' => if negb (x =? i) then false else iotaLoop (i + 1) l' end.
(** MEDCouplingMemArray.txx 5468-5481. *)
Definition isIota (sizeExpected : Z) (d : da Z) : res bool :=
  checkAllocated d (
  if negb (da_nc d =? 1) then Ok false else
  if negb (da_nt d =? sizeExpected) then Ok false else
  Ok (iotaLoop 0 (da_vals d))).

(** MEDCouplingMemArray.txx 5493-5506. *)
Definition isUniform (val : Z) (d : da Z) : res bool :=
  checkAllocated d (checkOneComp d (Ok (forallb (fun v => v =? val) (da_vals d)))).
(** MEDCouplingMemArray.txx 5520-5536; [empty()] is "no element" (MEDCouplingMemArray.hxx empty). *)
Definition checkUniformAndGuess (d : da Z) : res Z :=
  checkAllocated d (checkOneComp d (
  match da_vals d with
  | [] => Throw
  | r :: _ => if forallb (fun v => v =? r) (da_vals d) then Ok r else Throw
  end)).
(** MEDCouplingMemArray.txx 5546-5559. *)
Definition hasUniqueValues (d : da Z) : res bool :=
  checkAllocated d (checkOneComp d (
  Ok (zlen (set_of (da_vals d)) =? da_nt d))).

(** The loops of isMonotonic / isStrictlyMonotonic: [ok x ref] is the test between a value and the previous one. *)
Fixpoint monoLoop (ok : Z -> Z -> bool) (ref : Z) (l : list Z) : bool :=
  match l with [] => true | x :: l' => if ok x ref then monoLoop ok x l' else false end.
(** MEDCouplingMemArray.txx 4375-4408 and 4415-4448. *)
Definition isMonotonic (increasing : bool) (d : da Z) : res bool :=
  checkAllocated d (checkOneComp d (
  match da_vals d with
  | [] => Ok true
  | ref :: l => Ok (if increasing then monoLoop (fun x r => r <=? x) ref l else monoLoop (fun x r => x <=? r) ref l)
  end)).
Definition isStrictlyMonotonic (increasing : bool) (d : da Z) : res bool :=
  checkAllocated d (checkOneComp d (
  match da_vals d with
  | [] => Ok true
  | ref :: l => Ok (if increasing then monoLoop (fun x r => r <? x) ref l else monoLoop (fun x r => x <? r) ref l)
  end)).

(** DenseMatrix: src/MEDCoupling/MEDCouplingMatrix.cxx.  The arrays are in a heap and a matrix has a pointer to one of them, so that several matrices
    may share an array.  The values are exact rational numbers.  Simplifications: the matrices are not null; sizes are unbounded integers; no time
    labels, names and reference counts; the constructor with sizes only (30, 295), whose values are not initialised, and isEqual are left out. *)
From Coq Require Import QArith Qcanon.
From Verif Require Import Base DataArray SetModel ArithModel LayoutModel SkyModel IvModel.
Local Open Scope Z_scope.

Definition heap : Type := list (da Qc).
Record dm : Type := DM { dm_rows : Z; dm_cols : Z; dm_data : Z }.
(** getNbOfElems, MEDCouplingMatrix.hxx 53. *)
Definition getNbOfElems (m : dm) : Z := dm_rows m * dm_cols m.
(** CheckArraySizes, 347-362; [None] is the null pointer. *)
Definition CheckArraySizes (h : heap) (array : option Z) (nbRows nbCols : Z) : res Z :=
  throw_if (nbRows <? 0) || (nbCols <? 0) >>>
  match array with
  | None => Throw
  | Some p =>
    let* a := rd h p in
    throw_if negb (da_alloc a) >>>
    throw_if negb (da_nc a =? 1) >>>
    throw_if negb (nbRows * nbCols =? zlen (da_vals a)) >>>
    Ok p
  end.
(** New, 36-39, with the constructor 306-311. *)
Definition New (h : heap) (array : option Z) (nbRows nbCols : Z) : res dm := let* p := CheckArraySizes h array nbRows nbCols in Ok (DM nbRows nbCols p).
(** A new array, with its pointer. *)
Definition newArray (h : heap) (l : list (option Qc)) : res (heap * Z) := let* l := initialised l in Ok (h ++ [DA true 1 l], zlen h).
(** deepCopy, 42-47. *)
Definition deepCopy (h : heap) (m : dm) : res (heap * dm) :=
  let* a := rd h (dm_data m) in
  let h' := h ++ [a] in
  let* m' := New h' (Some (zlen h)) (dm_rows m) (dm_cols m) in
  Ok (h', m').
(** shallowCpy, 50-56. *)
Definition shallowCpy (h : heap) (m : dm) : res dm := New h (Some (dm_data m)) (dm_rows m) (dm_cols m).
(** getNumberOfRowsExt and getNumberOfColsExt, 314-333. *)
Definition getNumberExt (cur nb : Z) : res Z := throw_if nb <? -1 >>> Ok (if nb =? -1 then cur else nb).
(** reBuild, 90-110. *)
Definition reBuild (h : heap) (m : dm) (array : option Z) (nbRows nbCols : Z) : res dm :=
  let* nbr := getNumberExt (dm_rows m) nbRows in
  let* nbc := getNumberExt (dm_cols m) nbCols in
  let* p := CheckArraySizes h array nbr nbc in
  Ok (DM nbr nbc p).
(** reShape, 123-142. *)
Definition reShape (m : dm) (nbRows nbCols : Z) : res dm :=
  throw_if (nbRows <? 0) || (nbCols <? 0) >>>
  throw_if negb (nbRows * nbCols =? getNbOfElems m) >>>
  Ok (DM nbRows nbCols (dm_data m)).
(** transpose, 145-153: toNoInterlace is the one of the memory, given the number of columns as number of components. *)
Definition transpose (h : heap) (m : dm) : res (heap * dm) :=
  let* a := rd h (dm_data m) in
  let* pt := toNoInterlace (DA true (dm_cols m) (da_vals a)) in
  let* l := forZ 0 (getNbOfElems m) (fun k l => let* v := rdc pt k in wr l k v) (da_vals a) in
  let* h := wr h (dm_data m) (DA (da_alloc a) (da_nc a) l) in
  Ok (h, DM (dm_cols m) (dm_rows m) (dm_data m)).
(** checkValidData, 336-344. *)
Definition checkValidData (h : heap) (m : dm) : res (da Qc) :=
  let* a := rd h (dm_data m) in
  throw_if negb (da_alloc a) >>>
  throw_if negb (da_nc a =? 1) >>>
  Ok a.
(** CheckSameSize, 365-375: the two arrays. *)
Definition CheckSameSize (h : heap) (a1 a2 : dm) : res (da Qc * da Qc) :=
  let* d1 := checkValidData h a1 in
  let* d2 := checkValidData h a2 in
  throw_if negb (dm_rows a1 =? dm_rows a2) >>>
  throw_if negb (dm_cols a1 =? dm_cols a2) >>>
  Ok (d1, d2).
Definition addQ (x y : Qc) : res Qc := Ok (x + y)%Qc.
Definition subQ (x y : Qc) : res Qc := Ok (x - y)%Qc.
(** Add, 221-229. *)
Definition Add (h : heap) (a1 a2 : dm) : res (heap * dm) :=
  let* (d1, d2) := CheckSameSize h a1 a2 in
  let* d := mulAdd addQ (Some d1) (Some d2) in
  let* (h, p) := newArray h (da_vals d) in
  let* m := New h (Some p) (dm_rows a1) (dm_cols a1) in
  Ok (h, m).
(** Substract, 241-249. *)
Definition Substract (h : heap) (a1 a2 : dm) : res (heap * dm) :=
  let* (d1, d2) := CheckSameSize h a1 a2 in
  let* d := divSub subQ (Some d1) (Some d2) in
  let* (h, p) := newArray h (da_vals d) in
  let* m := New h (Some p) (dm_rows a1) (dm_cols a1) in
  Ok (h, m).
(** The two operations in place on the array of [a1]; the second array may be the same one. *)
Definition onArray (f : Qc -> Qc -> res Qc) (h : heap) (a1 a2 : dm) : res heap :=
  let* (d1, d2) := CheckSameSize h a1 a2 in
  match somethingEqual f d1 (if dm_data a1 =? dm_data a2 then Self else Other d2) with
  | (Ok _, d) => wr h (dm_data a1) d
  | (Throw, _) => Throw
  | (UB, _) => UB
  | (Fuel, _) => Fuel
  end.
(** addEqual, 232-238, and substractEqual, 252-258. *)
Definition addEqual : heap -> dm -> dm -> res heap := onArray addQ.
Definition substractEqual : heap -> dm -> dm -> res heap := onArray subQ.
(** CheckCompatibleSizeForMul, 378-388. *)
Definition CheckCompatibleSizeForMul (h : heap) (a1 a2 : dm) : res (da Qc * da Qc) :=
  let* d1 := checkValidData h a1 in
  let* d2 := checkValidData h a2 in
  throw_if negb (dm_cols a1 =? dm_rows a2) >>>
  Ok (d1, d2).
(** Multiply, 261-280: the matrix is filled after its construction, which does not read the values. *)
Definition Multiply (h : heap) (a1 a2 : dm) : res (heap * dm) :=
  let* (d1, d2) := CheckCompatibleSizeForMul h a1 a2 in
  let* l := matrixProduct (da_vals d1) (dm_rows a1) (dm_cols a1) (da_vals d2) (dm_rows a2) (dm_cols a2) in
  let* (h, p) := newArray h l in
  let* m := New h (Some p) (dm_rows a1) (dm_cols a2) in
  Ok (h, m).
(** Multiply #2, 283-291. *)
Definition MultiplyArr (h : heap) (a1 : dm) (array : option Z) : res (heap * dm) :=
  match array with
  | None => Throw
  | Some p =>
    let* a := rd h p in
    throw_if negb (da_alloc a) >>>
    throw_if negb (da_nc a =? 1) >>>
    let* a2 := New h (Some p) (da_nt a) 1 in
    Multiply h a1 a2
  end.
(** MatVecMult, 195-218: the heap with the array returned, and its pointer. *)
Definition MatVecMult (h : heap) (m : dm) (array : option Z) : res (heap * Z) :=
  match array with
  | None => Throw
  | Some p =>
    let* v := rd h p in
    throw_if negb (da_alloc v) >>>
    throw_if negb (da_nc v =? 1) >>>
    throw_if negb (da_nt v =? dm_cols m) >>>
    let* a := rd h (dm_data m) in
    let* l := matrixProduct (da_vals a) (dm_rows m) (dm_cols m) (da_vals v) (da_nt v) 1 in
    newArray h l
  end.

(** A session: the arrays and the matrices that exist.  The matrices and the arrays are given by their rank; a rank where there is nothing does
    nothing.  [OWrite] is a user who writes values in an array. *)
Inductive op : Type :=
  ONew (p : option Z) (r c : Z) | OCopy (i : Z) | OShallow (i : Z) | OReBuild (i : Z) (p : option Z) (r c : Z) | OReShape (i r c : Z) | OTranspose (i : Z)
  | OAdd (i j : Z) | OSub (i j : Z) | OAddEq (i j : Z) | OSubEq (i j : Z) | OMul (i j : Z) | OMulArr (i : Z) (p : option Z) | OVec (i : Z) (p : option Z)
  | OWrite (p k : Z) (v : Qc).
Definition session : Type := heap * list dm.
Definition at_ (ms : list dm) (i : Z) (k : dm -> res session) : res session := match ms @ i with Some m => k m | None => Throw end.
Definition ptr (h : heap) (p : option Z) (k : res session) : res session := match p with None => k | Some q => match h @ q with Some _ => k | None => Throw end end.
Definition step (s : session) (o : op) : res session :=
  let '(h, ms) := s in
  match o with
  | ONew p r c => ptr h p (let* m := New h p r c in Ok (h, ms ++ [m]))
  | OCopy i => at_ ms i (fun m => let* (h, m') := deepCopy h m in Ok (h, ms ++ [m']))
  | OShallow i => at_ ms i (fun m => let* m' := shallowCpy h m in Ok (h, ms ++ [m']))
  | OReBuild i p r c => at_ ms i (fun m => ptr h p (let* m' := reBuild h m p r c in let* ms := wr ms i m' in Ok (h, ms)))
  | OReShape i r c => at_ ms i (fun m => let* m' := reShape m r c in let* ms := wr ms i m' in Ok (h, ms))
  | OTranspose i => at_ ms i (fun m => let* (h, m') := transpose h m in let* ms := wr ms i m' in Ok (h, ms))
  | OAdd i j => at_ ms i (fun m => at_ ms j (fun m2 => let* (h, m') := Add h m m2 in Ok (h, ms ++ [m'])))
  | OSub i j => at_ ms i (fun m => at_ ms j (fun m2 => let* (h, m') := Substract h m m2 in Ok (h, ms ++ [m'])))
  | OAddEq i j => at_ ms i (fun m => at_ ms j (fun m2 => let* h := addEqual h m m2 in Ok (h, ms)))
  | OSubEq i j => at_ ms i (fun m => at_ ms j (fun m2 => let* h := substractEqual h m m2 in Ok (h, ms)))
  | OMul i j => at_ ms i (fun m => at_ ms j (fun m2 => let* (h, m') := Multiply h m m2 in Ok (h, ms ++ [m'])))
  | OMulArr i p => at_ ms i (fun m => ptr h p (let* (h, m') := MultiplyArr h m p in Ok (h, ms ++ [m'])))
  | OVec i p => at_ ms i (fun m => ptr h p (let* (h, _) := MatVecMult h m p in Ok (h, ms)))
  | OWrite p k v => ptr h (Some p) (let* a := rd h p in if (0 <=? k) && (k <? zlen (da_vals a)) then let* l := wr (da_vals a) k v in let* h := wr h p (DA (da_alloc a) (da_nc a) l) in Ok (h, ms) else Throw)
  end.
(** An exception leaves the session as it was. *)
Definition run (ops : list op) (s : session) : res session := foldM (fun s o => match step s o with Throw => Ok s | r => r end) ops s.

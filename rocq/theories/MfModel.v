(** Several fields sharing meshes and arrays: src/MEDCoupling/MEDCouplingMultiFields.cxx.
    Line numbers are those of that file unless said otherwise. *)
From stdpp Require Import strings.
From Verif Require Import Base ArrLib SerModel.
From Coq Require Import QArith.
Local Open Scope Z_scope.
Local Open Scope list_scope.

(** The meshes and the arrays in memory: a pointer is a rank in these lists. *)
Record store (M A : Type) := St { st_mesh : list M; st_arr : list A }.
Arguments St {M A}. Arguments st_mesh {M A}. Arguments st_arr {M A}.
(** A field.  [f_ptr] is its address, [f_info] stands for its name, its description and its nature, [f_discr] is the address of its
    spatial discretization, [f_kind] its time discretization (NO_TIME = 4, ONE_TIME = 5, LINEAR_TIME = 6, CONST_ON_TIME_INTERVAL = 7),
    [f_times] its steps: iteration, order, time. *)
Record fld (I : Type) := Fld { f_ptr : Z; f_info : I; f_discr : Z; f_mesh : option Z; f_kind : Z; f_arrays : list (option Z);
  f_unit : string; f_tol : Q; f_times : list (Z * Z * Q) }.
Arguments Fld {I}. Arguments f_ptr {I}. Arguments f_info {I}. Arguments f_discr {I}. Arguments f_mesh {I}. Arguments f_kind {I}.
Arguments f_arrays {I}. Arguments f_unit {I}. Arguments f_tol {I}. Arguments f_times {I}.

(** std::find: the rank of the first occurrence. *)
Fixpoint findPtr (l : list Z) (p : Z) : option Z :=
  match l with [] => None | x :: r => if x =? p then Some 0 else (fun k => k + 1) <$> findPtr r p end.
(** 252-266 and 302-315: the rank of a pointer in the list of those already met, to which a new one is added; -1 for null. *)
Definition numberOne (ms : list Z) (p : option Z) : list Z * Z :=
  match p with
  | None => (ms, -1)
  | Some m => match findPtr ms m with None => (ms ++ [m], zlen ms) | Some k => (ms, k) end
  end.
(** getMeshes, 229-241. *)
Definition getMeshes {I} (fs : list (option (fld I))) : list (option Z) := (fun f => match f with Some f => f_mesh f | None => None end) <$> fs.
(** getDifferentMeshes, 243-269.  The vector of ranks is filled from its start: it is built by adding at its end. *)
Definition getDifferentMeshes {I} (fs : list (option (fld I))) : list Z * list Z :=
  foldl (fun st f => let '(ms, refs) := st in
    let m := match f with Some f => f_mesh f | None => None end in
    let '(ms, r) := numberOne ms m in (ms, refs ++ [r])) ([], []) fs.
(** getArrays, 271-281. *)
Definition getArrays {I} (fs : list (option (fld I))) : res (list (option Z)) :=
  foldM (fun l f => match f with Some f => Ok (l ++ f_arrays f) | None => UB end) fs [].
(** getDifferentArrays, 283-318. *)
Definition getDifferentArrays {I} (fs : list (option (fld I))) : list Z * list (list Z) :=
  foldl (fun st f => let '(ret, refs) := st in
    let tmp2 := match f with Some f => f_arrays f | None => [] end in
    let '(ret, r) := foldl (fun st a => let '(ret, r) := st in let '(ret, k) := numberOne ret a in (ret, r ++ [k])) (ret, []) tmp2 in
    (ret, refs ++ [r])) ([], []) fs.

(** The constructor, 334-346; [consistent] is the answer of checkConsistencyLight of a field. *)
Definition newMultiFields {I} (consistent : fld I -> bool) (fs : list (option (fld I))) : res (list (option (fld I))) :=
  foldM (fun l f => match f with None => Throw | Some g => throw_if negb (consistent g) >>> Ok (l ++ [Some g]) end) fs [].
(** getFieldWithId, 167-173, and getFieldAtPos, 189-199. *)
Definition getFieldWithId {I} (fs : list (option (fld I))) (id : Z) : res (option (fld I)) :=
  throw_if (zlen fs <=? id) || (id <? 0) >>> rd fs id.
(** getTimeResolution, 115-123. *)
Fixpoint getTimeResolution {I} (fs : list (option (fld I))) : res Q :=
  match fs with [] => Throw | Some f :: _ => Ok (f_tol f) | None :: r => getTimeResolution r end.

(** isEqual, 50-83; [feq] is the answer of the comparison of two fields with the precisions given. *)
Definition isEqual {I} (feq : fld I -> fld I -> bool) (a b : list (option (fld I))) : res bool :=
  if negb (zlen a =? zlen b) then Ok false else
  let* same := forZ 0 (zlen a) (fun i ok =>
    if negb ok then Ok false else
    let* f1 := rd a i in
    let* f2 := rd b i in
    match f1, f2 with
    | Some x, Some y => Ok ((f_ptr x =? f_ptr y) || feq x y)
    | None, None => Ok true
    | _, _ => Ok false
    end) true in
  if negb same then Ok false else
  let '(ms1, refs1) := getDifferentMeshes a in
  let '(ms2, refs2) := getDifferentMeshes b in
  if negb (zlen ms1 =? zlen ms2) then Ok false else
  if negb (bool_decide (refs1 = refs2)) then Ok false else
  let '(das1, refs3) := getDifferentArrays a in
  let '(das2, refs4) := getDifferentArrays a in
  if negb (zlen das1 =? zlen das2) then Ok false else
  if negb (bool_decide (refs3 = refs4)) then Ok false else
  Ok true.

(** getTinySerializationIntInformation2, MEDCouplingTimeDiscretization.cxx 1374-1378, 1463-1469, 1921-1929, 2688-2696. *)
Definition tinyInt2 {I} (f : fld I) : list Z := concat ((fun t => [t.1.1; t.1.2]) <$> f_times f).
(** getTinySerializationDbleInformation2, MEDCouplingTimeDiscretization.cxx 1383-1388, 1474-1480, 1934-1941, 2701-2708. *)
Definition tinyDbl2 {I} (f : fld I) : list Q := f_tol f :: (snd <$> f_times f).
(** finishUnserialization2, MEDCouplingTimeDiscretization.cxx 1393-1399, 1485-1494, 1946-1958, 2713-2725: the tolerance and the steps. *)
Definition finish2 (kind : Z) (tI : list Z) (tD : list Q) : res (Q * list (Z * Z * Q)) :=
  let* tol := rd tD 0 in
  if kind =? 4 then Ok (tol, []) else
  let* i0 := rd tI 0 in let* o0 := rd tI 1 in let* t0 := rd tD 1 in
  if kind =? 5 then Ok (tol, [(i0, o0, t0)]) else
  let* i1 := rd tI 2 in let* o1 := rd tI 3 in let* t1 := rd tD 2 in
  Ok (tol, [(i0, o0, t0); (i1, o1, t1)]).
(** The number of arrays of a time discretization: MEDCouplingTimeDiscretization.txx 253-258, .cxx 2549-2555. *)
Definition nbArrays (kind : Z) : Z := if kind =? 6 then 2 else 1.
(** setArrays, MEDCouplingTimeDiscretization.txx 228-236, .cxx 2741-2748. *)
Definition setArrays (kind : Z) (l : list (option Z)) : res (list (option Z)) := throw_if negb (zlen l =? nbArrays kind) >>> Ok l.
(** MEDCouplingTimeDiscretization::New throws on another value. *)
Definition knownKind (kind : Z) : bool := (4 <=? kind) && (kind <=? 7).

(** The array of rank [k] in [das], null for -1. *)
Definition pick (das : list Z) (k : Z) : res (option Z) := if k =? -1 then Ok None else let* p := rd das k in Ok (Some p).

(** deepCopy, 44-48 with the copy constructor 348-391.  Copies go after what is in memory.  MEDCouplingFieldTemplate::New refuses a field
    without mesh (MEDCouplingFieldTemplate.cxx 150-155); the field built from the template shares the spatial discretization
    (MEDCouplingField.cxx 549-561 called with false) and has no time unit.  [addr i] is the address of the new field number [i]. *)
Definition deepCopy {M A I} (addr : Z -> Z) (s : store M A) (fs : list (option (fld I))) : res (store M A * list (option (fld I))) :=
  let '(ms, refs) := getDifferentMeshes fs in
  let* (hm, ms2) := foldM (fun st p => let '(h, l) := st in let* m := rd h p in Ok (h ++ [m], l ++ [zlen h])) ms (st_mesh s, []) in
  let '(das, refs2) := getDifferentArrays fs in
  let* (ha, das2) := foldM (fun st p => let '(h, l) := st in let* a := rd h p in Ok (h ++ [a], l ++ [zlen h])) das (st_arr s, []) in
  let* l := forZ 0 (zlen fs) (fun i l =>
    let* fo := rd fs i in
    match fo with
    | None => Ok (l ++ [None])
    | Some f =>
      throw_if (match f_mesh f with None => true | Some _ => false end) >>>
      throw_if negb (knownKind (f_kind f)) >>>
      let* r := rd refs i in
      let* m := (if negb (r =? -1) then let* p := rd ms2 r in Ok (Some p) else Ok (f_mesh f)) in
      let* rs := rd refs2 i in
      let* tmp2 := foldM (fun t k => let* a := pick das2 k in Ok (t ++ [a])) rs [] in
      let* ars := setArrays (f_kind f) tmp2 in
      let* (tol, times) := finish2 (f_kind f) (tinyInt2 f) (tinyDbl2 f) in
      Ok (l ++ [Some (Fld (addr i) (f_info f) (f_discr f) m (f_kind f) ars "" tol times)])
    end) [] in
  Ok (St hm ha, l).

(** getTinySerializationInformation, 395-439: integers, doubles, number of different meshes, number of different arrays. *)
Definition getTinySerializationInformation {I} (fs : list (option (fld I))) : res (list Z * list Q * Z * Z) :=
  let '(ms, refs) := getDifferentMeshes fs in
  let '(das, refs2) := getDifferentArrays fs in
  let sz := zlen refs in
  let sz2 := foldl (fun n r => n + zlen r) 0 refs2 in
  let v := replicate (Z.to_nat (sz2 + 5 * sz + 3)) 0 in
  let* v := wr v 0 sz in
  let* v := wr v 1 sz2 in
  let* (v, tD, timeInt) := forZ 0 sz (fun i st => let '(v, tD, timeInt) := st in
    let* fo := rd fs i in
    match fo with
    | None => UB
    | Some f =>
      let* v := wr v (3 * sz + 3 + i) (zlen (tinyDbl2 f)) in
      let* v := wr v (4 * sz + 3 + i) (zlen (tinyInt2 f)) in
      Ok (v, tD ++ tinyDbl2 f, timeInt ++ tinyInt2 f)
    end) (v, [], []) in
  let* v := wr v 2 (zlen timeInt) in
  let* v := forZ 0 sz (fun i v => let* r := rd refs i in wr v (i + 3) r) v in
  let* v := forZ 0 sz (fun i v => let* r := rd refs2 i in wr v (i + sz + 3) (zlen r)) v in
  let* v := forZ 0 sz (fun i v => let* fo := rd fs i in match fo with None => UB | Some f => wr v (i + 2 * sz + 3) (f_kind f) end) v in
  let* (v, _) := foldM (fun st r => foldM (fun st x => let '(v, k) := st in let* v := wr v (5 * sz + k + 3) x in Ok (v, k + 1)) r st) refs2 (v, 0) in
  Ok (v ++ timeInt, tD, zlen ms, zlen das).

(** finishUnserialization, 441-489, on templates [ft] (the information and the spatial discretization), with the meshes and the arrays
    received. *)
Definition finishUnserialization {I} (addr : Z -> Z) (tI : list Z) (tD : list Q) (ft : list (I * Z)) (ms das : list Z) : res (list (fld I)) :=
  let* sz := rd tI 0 in
  let* sz2 := rd tI 1 in
  let* meshes := forZ 0 sz (fun i l => let* id := rd tI (3 + i) in let* _ := rd ft i in let* m := pick ms id in Ok (l ++ [m])) [] in
  let* (l, _, _, _) := forZ 0 sz (fun i st => let '(l, k, offI, offD) := st in
    let* t := rd ft i in
    let* m := rd meshes i in
    let* kind := rd tI (2 * sz + 3 + i) in
    throw_if negb (knownKind kind) >>>
    let* sz3 := rd tI (sz + i + 3) in
    let* (tmp, k) := forZ 0 sz3 (fun _ st => let '(tmp, k) := st in
      let* id := rd tI (5 * sz + k + 3) in let* a := pick das id in Ok (tmp ++ [a], k + 1)) ([], k) in
    let* ars := setArrays kind tmp in
    let* lgthI := rd tI (4 * sz + 3 + i) in
    let* lgthD := rd tI (3 * sz + 3 + i) in
    let* tdI := subv tI (sz2 + 5 * sz + 3 + offI) (sz2 + 5 * sz + 3 + offI + lgthI) in
    let* tdD := subv tD offD (offD + lgthD) in
    let* (tol, times) := finish2 kind tdI tdD in
    Ok (l ++ [Fld (addr i) t.1 t.2 m kind ars "" tol times], k, offI + lgthI, offD + lgthD)) ([], 0, 0, 0) in
  Ok l.

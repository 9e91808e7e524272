(** Definition of fields along the time: src/MEDCoupling/MEDCouplingDefinitionTime.cxx (all of it but the textual representations) and
    MEDCouplingFieldOverTime::checkConsistencyLight (MEDCouplingFieldOverTime.cxx 48-84).  Times and tolerances are rational numbers
    instead of doubles: rounding and NaN are left out.  Line numbers are those of MEDCouplingDefinitionTime.cxx unless said otherwise. *)
From Verif Require Import Base ArrLib GlModel SerModel.
From Coq Require Import QArith Qabs.
Local Open Scope Z_scope.

(** What is read of a field: getTimeDiscretization (MEDCouplingRefCountObject.hxx 53-59: NO_TIME = 4, ONE_TIME = 5, LINEAR_TIME = 6,
    CONST_ON_TIME_INTERVAL = 7), getStartTime, getEndTime and getTimeTolerance. *)
Record tfield := TF { tf_kind : Z; tf_start : Q; tf_end : Q; tf_tol : Q }.

(** MEDCouplingDefinitionTimeSlice and its three subclasses, MEDCouplingDefinitionTime.hxx 36-164: the ids of the mesh, of the array
    (of the two arrays for a linear time) and of the field, then the times. *)
Inductive slice :=
| Inst (mesh arr fld : Z) (t : Q)
| CstTI (mesh arr fld : Z) (t0 t1 : Q)
| LinT (mesh arr arrEnd fld : Z) (t0 t1 : Q).

(** getStartTime, 264-268, 349-353, 478-482. *)
Definition startTime (s : slice) : Q := match s with Inst _ _ _ t => t | CstTI _ _ _ t0 _ => t0 | LinT _ _ _ _ t0 _ => t0 end.
(** getEndTime, 270-274, 355-359, 484-488. *)
Definition endTime (s : slice) : Q := match s with Inst _ _ _ t => t | CstTI _ _ _ _ t1 => t1 | LinT _ _ _ _ _ t1 => t1 end.
(** getTimeType, 210-214, 385-389, 520-524. *)
Definition timeType (s : slice) : Z := match s with Inst _ _ _ _ => 5 | CstTI _ _ _ _ _ => 7 | LinT _ _ _ _ _ _ => 6 end.

(** The constructor of the base class, 118-128. *)
Definition baseCheck {A} (f : tfield) (k : res A) : res A := throw_if Qltb (tf_end f) (tf_start f) >>> k.
(** MEDCouplingDefinitionTimeSlice::New from a field, 30-66, with the constructors 276-288, 391-401, 526-536.  A null field is
    dereferenced. *)
Definition sliceOfField (fo : option tfield) (meshId : Z) (arrId : list Z) (fieldId : Z) : res slice :=
  match fo with
  | None => UB
  | Some f =>
      if tf_kind f =? 5 then
        match arrId with
        | [a] => baseCheck f (throw_if Qltb (tf_tol f) (Qabs (tf_start f - tf_end f)) >>> Ok (Inst meshId a fieldId (tf_start f)))
        | _ => Throw
        end
      else if tf_kind f =? 7 then
        match arrId with [a] => baseCheck f (Ok (CstTI meshId a fieldId (tf_start f) (tf_end f))) | _ => Throw end
      else if tf_kind f =? 6 then
        match arrId with [a; b] => baseCheck f (Ok (LinT meshId a b fieldId (tf_start f) (tf_end f))) | _ => Throw end
      else Throw
  end.

(** isEqual of the base class, 88-98. *)
Definition sameIds (m a f m' a' f' : Z) : bool := (m =? m') && (a =? a') && (f =? f').
(** isEqual, 222-231, 304-316, 417-430. *)
Definition sliceEqual (s o : slice) (eps : Q) : bool :=
  match s, o with
  | Inst m a f t, Inst m' a' f' t' => sameIds m a f m' a' f' && Qltb (Qabs (t' - t)) eps
  | CstTI m a f t0 t1, CstTI m' a' f' u0 u1 =>
      sameIds m a f m' a' f' && negb (Qltb eps (Qabs (u0 - t0))) && Qltb (Qabs (u1 - t1)) eps
  | LinT m a b f t0 t1, LinT m' a' b' f' u0 u1 =>
      sameIds m a f m' a' f' && (b =? b') && negb (Qltb eps (Qabs (u0 - t0))) && Qltb (Qabs (u1 - t1)) eps
  | _, _ => false
  end.

(** isFullyIncludedInMe, 142-150. *)
Definition isFullyIncludedInMe (s o : slice) (eps : Q) : bool :=
  Qltb (startTime s - eps) (startTime o) && Qltb (endTime o) (endTime s + eps).
(** isAfterMe, 162-169. *)
Definition isAfterMe (s o : slice) (eps : Q) : bool :=
  Qltb (endTime s - eps) (startTime o) && Qltb (endTime s - eps) (endTime o).
(** isBeforeMe, 171-178. *)
Definition isBeforeMe (s o : slice) (eps : Q) : bool :=
  Qltb (startTime o) (startTime s + eps) && Qltb (endTime o) (startTime s + eps).
(** isOverllapingWithMe, 152-160. *)
Definition isOverllapingWithMe (s o : slice) (eps : Q) : bool :=
  (Qltb (startTime o) (startTime s + eps) && Qltb (endTime o) (startTime s + eps))
  || (Qltb (endTime s - eps) (startTime o) && Qltb (endTime s - eps) (endTime o)).
(** isContaining, 251-255, 336-340, 464-468. *)
Definition isContaining (s : slice) (tm eps : Q) : bool :=
  match s with
  | Inst _ _ _ t => Qltb (Qabs (tm - t)) eps
  | CstTI _ _ _ t0 t1 => Qltb (t0 - eps) tm && Qltb tm (t1 + eps)
  | LinT _ _ _ _ t0 t1 => Qltb (t0 - eps) tm && Qltb tm (t1 + eps)
  end.
(** getHotSpotsTime of a slice, 233-238, 318-323, 432-438. *)
Definition sliceHotSpots (s : slice) : list Q :=
  match s with Inst _ _ _ t => [t] | CstTI _ _ _ t0 t1 => [(t0 + t1) / 2] | LinT _ _ _ _ t0 t1 => [t0; t1] end%Q.
(** What getIdsOnTime gives: mesh, array, array in the field, field. *)
Definition ids : Type := Z * Z * Z * Z.
(** getIdsOnTime of a slice, 240-249, 325-334, 440-462. *)
Definition sliceIds (s : slice) (tm eps : Q) : res ids :=
  match s with
  | Inst m a f _ => Ok (m, a, 0, f)
  | CstTI m a f _ _ => Ok (m, a, 0, f)
  | LinT m a b f t0 t1 =>
      if Qltb (Qabs (tm - t0)) eps then Ok (m, a, 0, f)
      else if Qltb (Qabs (tm - t1)) eps then Ok (m, b, 1, f)
      else Throw
  end.

(** getTinySerializationInformation of a slice, 188-199, 361-373, 496-507. *)
Definition sliceTiny (s : slice) : list Z * list Q :=
  match s with
  | Inst m a f t => ([m; a; f], [t])
  | CstTI m a f t0 t1 => ([m; a; f], [t0; t1])
  | LinT m a b f t0 t1 => ([m; a; f; b], [t0; t1])
  end.
(** New from the serialized data, 68-85, with unserialize 180-186 201-207, 290-296 375-383, 403-409 509-518. *)
Definition sliceOfTiny (ty : Z) (tI : list Z) (tD : list Q) : res slice :=
  if ty =? 5 then
    let* m := rd tI 0 in let* a := rd tI 1 in let* f := rd tI 2 in let* t := rd tD 0 in Ok (Inst m a f t)
  else if ty =? 7 then
    let* m := rd tI 0 in let* a := rd tI 1 in let* f := rd tI 2 in let* t0 := rd tD 0 in let* t1 := rd tD 1 in
    Ok (CstTI m a f t0 t1)
  else if ty =? 6 then
    let* m := rd tI 0 in let* a := rd tI 1 in let* f := rd tI 2 in let* b := rd tI 3 in
    let* t0 := rd tD 0 in let* t1 := rd tD 1 in Ok (LinT m a b f t0 t1)
  else Throw.

(** MEDCouplingDefinitionTime, MEDCouplingDefinitionTime.hxx 166-204.  [d_eps = None]: _eps was never given a value. *)
Record deftime := DT { d_eps : option Q; d_slices : list slice }.
(** Reading _eps. *)
Definition epsOf (d : deftime) : res Q := match d_eps d with Some e => Ok e | None => UB end.

(** The constructor, 540-580.  A double that is not set has no value. *)
Definition newDefTime (fs : list (option tfield)) (meshRefs : list Z) (arrRefs : list (list Z)) : res deftime :=
  throw_if negb (zlen fs =? zlen arrRefs) >>>
  let* sl := forZ 0 (zlen fs) (fun i sl =>
    throw_if zlen arrRefs =? 0 >>>
    let* f := rd fs i in
    let* m := rd meshRefs i in
    let* a := rd arrRefs i in
    let* s := sliceOfField f m a i in
    Ok (sl ++ [s])) [] in
  if zlen fs <=? 1 then Ok (DT None sl) else
  let* r0 := rd sl 0 in
  let* f0 := rd fs 0 in
  match f0 with
  | None => UB
  | Some f =>
      let* _ := forZ 1 (zlen fs) (fun i ref =>
        let* s := rd sl i in throw_if negb (isAfterMe ref s (tf_tol f)) >>> Ok s) r0 in
      Ok (DT (Some (tf_tol f)) sl)
  end.

(** assign, 594-600: the slices are copied. *)
Definition assign (d other : deftime) : deftime := DT (d_eps d) (d_slices other).

(** isEqual, 602-612. *)
Definition isEqual (d other : deftime) : res bool :=
  if negb (zlen (d_slices d) =? zlen (d_slices other)) then Ok false else
  forZ 0 (zlen (d_slices d)) (fun i b =>
    if negb b then Ok false else
    let* s := rd (d_slices d) i in
    let* o := rd (d_slices other) i in
    let* e := epsOf d in
    Ok (sliceEqual s o e)) true.

(** getIdsOnTime, 642-669. *)
Definition getIdsOnTime (d : deftime) (tm : Q) : res (list ids) :=
  let* l := forZ 0 (zlen (d_slices d)) (fun id l =>
    let* s := rd (d_slices d) id in
    let* e := epsOf d in
    Ok (if isContaining s tm e then l ++ [id] else l)) [] in
  throw_if zlen l =? 0 >>>
  throw_if 2 <? zlen l >>>
  forZ 0 (zlen l) (fun i acc =>
    let* id := rd l i in
    let* s := rd (d_slices d) id in
    let* e := epsOf d in
    let* r := sliceIds s tm e in
    Ok (acc ++ [r])) [].
(** getIdsOnTimeRight, 614-626. *)
Definition getIdsOnTimeRight (d : deftime) (tm : Q) : res ids :=
  let* l := getIdsOnTime d tm in rd l (zlen l - 1).
(** getIdsOnTimeLeft, 628-640. *)
Definition getIdsOnTimeLeft (d : deftime) (tm : Q) : res ids :=
  let* l := getIdsOnTime d tm in rd l 0.

(** getHotSpotsTime, 671-691. *)
Definition getHotSpotsTime (d : deftime) : res (list Q) :=
  foldM (fun ret s =>
    let tmp := sliceHotSpots s in
    if negb (zlen ret =? 0) then
      let* b := rd ret (zlen ret - 1) in
      let* f := rd tmp 0 in
      let* e := epsOf d in
      if Qltb e (Qabs (b - f)) then Ok (ret ++ tmp) else Ok (ret ++ drop 1 tmp)
    else Ok (ret ++ tmp)) (d_slices d) [].

(** getTinySerializationInformation, 706-730, into vectors that are empty before the call. *)
Definition getTinySerializationInformation (d : deftime) : res (list Z * list Q) :=
  let sz := zlen (d_slices d) in
  let* e := epsOf d in
  let* tI := wr (replicate (Z.to_nat (3 * sz + 2)) 0) 0 sz in
  let* (tI, tD, core) := forZ 0 sz (fun i st =>
    let '(tI, tD, core) := st in
    let* s := rd (d_slices d) i in
    let* tI := wr tI (i + 2) (timeType s) in
    let '(tmp1, tmp2) := sliceTiny s in
    let* tI := wr tI (i + sz + 2) (zlen tmp1) in
    let* tI := wr tI (i + 2 * sz + 2) (zlen tmp2) in
    Ok (tI, tD ++ tmp2, core ++ tmp1)) (tI, [e], []) in
  let* tI := wr tI 1 (zlen core) in
  Ok (tI ++ core, tD).

(** unserialize, 732-752. *)
Definition unserialize (tI : list Z) (tD : list Q) : res deftime :=
  let* sz := rd tI 0 in
  let* e := rd tD 0 in
  let* (sl, o1, o2) := forZ 0 sz (fun i st =>
    let '(sl, o1, o2) := st in
    let* ty := rd tI (i + 2) in
    let* sz1 := rd tI (i + sz + 2) in
    let* sz2 := rd tI (i + 2 * sz + 2) in
    let* tmp1 := subv tI (3 * sz + 2 + o1) (3 * sz + 2 + o1 + sz1) in
    let* tmp2 := subv tD o2 (o2 + sz2) in
    let* s := sliceOfTiny ty tmp1 tmp2 in
    Ok (sl ++ [s], o1 + sz1, o2 + sz2)) ([], 0, 1) in
  Ok (DT (Some e) sl).

(** MEDCouplingFieldOverTime::checkConsistencyLight, MEDCouplingFieldOverTime.cxx 48-84, after the tests of each field by
    MEDCouplingMultiFields::checkConsistencyLight (so no field is null).  [compat i] is the answer of areCompatibleForMerge between the
    mesh of the first field and the mesh of field [i].  getTimeTolerance is the tolerance of the first field (35-45). *)
Definition overTimeCheck (fs : list tfield) (compat : Z -> bool) : res unit :=
  throw_if existsb (fun f => tf_kind f =? 4) fs >>>
  if zlen fs =? 0 then Ok tt else
  let* f0 := rd fs 0 in
  let* _ := forZ 1 (zlen fs) (fun i reft =>
    throw_if negb (compat i) >>>
    let* f := rd fs i in
    throw_if Qltb (tf_start f) (reft - tf_tol f0) >>>
    Ok (tf_end f)) (tf_end f0) in
  Ok tt.

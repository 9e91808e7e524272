(** Time labels (class TimeLabel) and their overseer. *)
From Verif Require Import Base.

(** An object with a time label and the objects it is made of.  Labels are [std::size_t]; the wrap around of the global counter after
    2^64 declarations is left out. *)
Record tobj := TObj { t_time : Z; t_kids : list Z }.
(** All the objects, and GLOBAL_TIME (MEDCouplingTimeLabel.cxx 28). *)
Record tstate := TSt { t_glob : Z; t_objs : list tobj }.

(** The components are objects (no dangling pointer). *)
Definition known (s : tstate) (kids : list Z) : bool := forallb (fun j => (0 <=? j) && (j <? zlen (t_objs s))) kids.
(** The constructor, 30: the label is the global counter, which is incremented. *)
Definition newLabel (s : tstate) (kids : list Z) : res tstate :=
  ub_if negb (known s kids) >>> Ok (TSt (t_glob s + 1) (t_objs s ++ [TObj (t_glob s) kids])).
(** The copy constructor, MEDCouplingTimeLabel.hxx 39 (defaulted): the label is copied. *)
Definition copyLabel (s : tstate) (i : Z) : res tstate :=
  let* o := rd (t_objs s) i in Ok (TSt (t_glob s) (t_objs s ++ [o])).
(** declareAsNew, 41-45; operator= 34-39 does the same to the label. *)
Definition declareAsNew (s : tstate) (i : Z) : res tstate :=
  let* o := rd (t_objs s) i in
  let* l := wr (t_objs s) i (TObj (t_glob s) (t_kids o)) in
  Ok (TSt (t_glob s + 1) l).
(** updateTimeWith, 47-52. *)
Definition updateTimeWith (s : tstate) (i j : Z) : res tstate :=
  let* o := rd (t_objs s) i in
  let* o' := rd (t_objs s) j in
  if t_time o <? t_time o' then let* l := wr (t_objs s) i (TObj (t_time o') (t_kids o)) in Ok (TSt (t_glob s) l) else Ok s.
(** updateTime of an aggregate: MEDCouplingUMesh.cxx 162-174 with MEDCouplingPointSet.cxx 72-77, MEDCouplingCMesh.cxx 131-140,
    MEDCoupling1GTUMesh.cxx 744-751, MEDCouplingField.cxx 170-177, MEDCouplingFieldDouble.cxx 1640-1645,
    MEDCouplingCartesianAMRMesh.cxx 2251-2267: updateTimeWith each component that is not null.  Without component: DataArray. *)
Definition updateTime (s : tstate) (i : Z) : res tstate :=
  let* o := rd (t_objs s) i in foldM (fun s j => updateTimeWith s i j) (t_kids o) s.
(** Replacing components, as MEDCouplingPointSet::setCoords: new pointers, then declareAsNew. *)
Definition setKids (s : tstate) (i : Z) (kids : list Z) : res tstate :=
  ub_if negb (known s kids) >>>
  let* o := rd (t_objs s) i in
  let* l := wr (t_objs s) i (TObj (t_time o) kids) in
  declareAsNew (TSt (t_glob s) l) i.
(** forceTimeOfThis, 54-62. *)
Definition forceTimeOfThis (s : tstate) (i j : Z) : res tstate :=
  let* o := rd (t_objs s) i in
  let* o' := rd (t_objs s) j in
  let* l := wr (t_objs s) i (TObj (t_time o') (t_kids o)) in Ok (TSt (t_glob s) l).

Inductive tcmd := TNew (kids : list Z) | TCopy (i : Z) | TDeclare (i : Z) | TUpdate (i : Z) | TSetKids (i : Z) (kids : list Z) | TForce (i j : Z).
Definition tstep (s : tstate) (c : tcmd) : res tstate :=
  match c with
  | TNew kids => newLabel s kids
  | TCopy i => copyLabel s i
  | TDeclare i => declareAsNew s i
  | TUpdate i => updateTime s i
  | TSetKids i kids => setKids s i kids
  | TForce i j => forceTimeOfThis s i j
  end.
Definition tstart : tstate := TSt 0 [].

(** The overseer: the object it tracks ([None]: null) and the reference label ([None]: the largest size_t). *)
Definition overseer : Type := option Z * option Z.
Definition timeOf (s : tstate) (i : Z) : res Z := let* o := rd (t_objs s) i in Ok (t_time o).
(** The constructor, 64-72. *)
Definition overseerNew (s : tstate) (tl : option Z) : res (tstate * overseer) :=
  match tl with
  | None => Throw
  | Some i => let* s := updateTime s i in let* t := timeOf s i in Ok (s, (Some i, Some t))
  end.
(** checkConst, 77-87. *)
Definition checkConst (s : tstate) (o : overseer) : res tstate :=
  match o.1 with
  | None => Throw
  | Some i =>
    let* s := updateTime s i in
    let* t := timeOf s i in
    throw_if negb (bool_decide (o.2 = Some t)) >>> Ok s
  end.
(** resetState, 89-100. *)
Definition resetState (s : tstate) (o : overseer) : res (tstate * overseer * bool) :=
  match o.1 with
  | None => Ok (s, o, false)
  | Some i => let* s := updateTime s i in let* t := timeOf s i in Ok (s, (Some i, Some t), true)
  end.
(** keepTrackOfNewTL, 102-118. *)
Definition keepTrackOfNewTL (s : tstate) (o : overseer) (tl : option Z) : res (tstate * overseer * bool) :=
  if bool_decide (o.1 = tl) then Ok (s, o, false) else
  match tl with
  | None => Ok (s, (None, None), true)
  | Some i => let* s := updateTime s i in let* t := timeOf s i in Ok (s, (Some i, Some t), true)
  end.

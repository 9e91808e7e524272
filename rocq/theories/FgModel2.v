(** Families and groups of a MED file mesh: merging families, normalizing ids, groups from scratch. *)
From stdpp Require Import strings pretty.
From Verif Require Import Base DataArray StdModel RenumModel SearchModel SetsModel PartModel FgModel.

(** ** zipFamilies. *)
(** operator< of std::set<std::string>: lexical order of the increasing sequences. *)
Fixpoint lexltb (a b : list string) : bool :=
  match a, b with
  | _, [] => false
  | [], _ :: _ => true
  | x :: a', y :: b' => if String.ltb x y then true else if String.ltb y x then false else lexltb a' b'
  end.
(** [m[k].push_back(x)] for a std::map<K,std::vector<V> > ordered by [ltb]. *)
Fixpoint kins {K V} (ltb : K -> K -> bool) (k : K) (v : V) (m : list (K * V)) : list (K * V) :=
  match m with [] => [(k, v)] | p :: m' => if ltb k p.1 then (k, v) :: m else p :: kins ltb k v m' end.
Definition kpush {K V} `{EqDecision K} (ltb : K -> K -> bool) (k : K) (x : list V) (m : list (K * list V)) : list (K * list V) :=
  if bool_decide (k ∈ m.*1) then (fun p => if bool_decide (p.1 = k) then (p.1, p.2 ++ x) else p) <$> m else kins ltb k x m.
(** MEDFileMesh.cxx 997-1004. *)
Definition classesOf (m : fmesh) : list (list string * list string) :=
  foldl (fun c (p : string * Z) => kpush lexltb (getGroupsOnFamily p.1 m) [p.1] c) [] (fm_fams m).
(** MEDFileMesh.cxx 1056-1076. *)
Definition substIds (levs : list level) '((v, ids) : Z * list Z) : res (list level) :=
  foldM (fun r lv => match lv_fam lv with
    | None => Ok (r ++ [lv])
    | Some a => let* pos := findIdsEqualList ids (vec a) in let* a := setIds v pos a in Ok (r ++ [LV (lv_id lv) (lv_nb lv) (Some a)])
    end) levs [].
(** MEDFileMesh.cxx 990-1079. *)
Definition zipFamilies (m : fmesh) : res fmesh :=
  throw_if zeroInGroup m >>>
  let m := removeFamiliesReferedByNoGroups m in
  let merged := filter (fun c : list string * list string => (1 < length c.2)%nat) (classesOf m) in
  let kill := concat ((fun c : list string * list string => tail c.2) <$> merged) in
  let* (groups, fams, subst) := foldM (fun '(groups, fams, subst) (c : list string * list string) =>
    match c.2 with
    | [] => UB
    | keep :: drop =>
      let id := default 0 (sget keep (fm_fams m)) in
      let* (groups, subst) := foldM (fun '(groups, subst) g =>
        let* ids := getFamiliesIds c.2 m in
        let old := default [] (sget g (fm_grps m)) in
        Ok (sput g (keep :: filter (fun n => n ∉ kill) old) groups, kpush Z.ltb id ids subst)) c.1 (groups, subst) in
      Ok (groups, foldl (fun f n => sdel n f) fams drop, subst)
    end) merged (fm_grps m, fm_fams m, []) in
  let* levs := foldM substIds subst (fm_levs m) in
  Ok (FM fams groups levs).

(** ** Normalizing the ids. *)
(** MEDFileMesh.cxx 1841-1852. *)
Definition getMaxFamilyId (m : fmesh) : res Z :=
  match fm_fams m with [] => Throw | fams => Ok (foldl (fun r (p : string * Z) => Z.max p.2 r) lowest fams) end.
(** MEDFileMesh.cxx 1963-2015: [allFamIds] is never changed, so the intersections are empty and the part 1991-2014 is never reached;
    [UB] stands for that part. *)
Definition ensureDifferentFamIdsPerLevel (m : fmesh) : res (bool * fmesh) :=
  let* _ := getMaxFamilyId m in
  let allFamIds := [] in
  let* toRenum := foldM (fun r v => match lv_fam v with
    | None => Ok r
    | Some a => let* dv := getDifferentValues (vec a) in Ok (r ++ filter (fun x => x ∈ allFamIds) dv)
    end) (fm_levs m) [] in
  match toRenum with [] => Ok (true, m) | _ => UB end.
(** The map [ren] of MEDFileMesh.cxx 2043-2044: the k-th different value becomes [ref + sg*k]; operator[] of an absent key is 0. *)
Definition renOf (ref sg : Z) (dv : list Z) (x : Z) : Z :=
  match list_find (eq x) dv with Some (i, _) => ref + sg * Z.of_nat i | None => 0 end.
(** MEDFileMesh.cxx 2041-2057, 2066-2082, 2087-2099, 2138-2154, 2161-2177: the field of a level is renumbered and the families of its
    ids get the new ids. *)
Definition renLevel (m : fmesh) (ren : list Z -> Z -> Z) (fams : list (string * Z)) (v : level) : res (list Z * list (string * Z) * option (list Z)) :=
  match lv_fam v with
  | None => Ok ([], fams, None)
  | Some a =>
    let* dv := getDifferentValues (vec a) in
    let* fams := foldM (fun f x => if existsFamilyId x m then let* n := getFamilyNameGivenId x m in Ok (sput n (ren dv x) f) else Ok f) dv fams in
    Ok (dv, fams, Some (ren dv <$> a))
  end.
(** MEDFileMesh.cxx 2103-2115, 2180-2192: the other families keep their ids. *)
Definition keepOthers (m : fmesh) (fams : list (string * Z)) : list (string * Z) :=
  foldl (fun f (p : string * Z) => match sget p.1 f with Some _ => f | None => sput p.1 p.2 f end) fams (fm_fams m).
(** Levels one after the other, ids from [ref] on by steps [sg]. *)
Definition renLevels (m : fmesh) (sg : Z) (levs : list level) (st : Z * list (string * Z) * fmesh) : res (Z * list (string * Z) * fmesh) :=
  foldM (fun '(ref, fams, m') v =>
    let* (dv, fams, a) := renLevel m (renOf ref sg) fams v in
    Ok (ref + sg * zlen dv, fams, putFam (lv_id v) a m')) levs st.
(** MEDFileMesh.cxx 2125-2186.  The levels of cells are taken in the order of the model, which stands for the decreasing one. *)
Definition normalizeFamIdsMEDFile (m : fmesh) : res fmesh :=
  let* (_, m) := ensureDifferentFamIdsPerLevel m in
  let* (_, fams, m') := renLevels m 1 (filter (fun v => lv_id v = 1) (fm_levs m)) (1, [], m) in
  let* (_, fams, m') := renLevels m (-1) (filter (fun v => lv_id v <> 1) (fm_levs m)) (-1, fams, m') in
  Ok (withMaps m' (keepOthers m fams) (fm_grps m)).
(** MEDFileMesh.cxx 2024-2117: level 0 from 1 up, level -1 from -1 down, 0 on the other levels. *)
Definition normalizeFamIdsTrio (m : fmesh) : res fmesh :=
  let* (_, m) := ensureDifferentFamIdsPerLevel m in
  let* (_, fams, m') := renLevels m 1 (filter (fun v => lv_id v = 0) (fm_levs m)) (1, [], m) in
  let* (_, fams, m') := renLevels m (-1) (filter (fun v => lv_id v = -1) (fm_levs m)) (-1, fams, m') in
  let* (_, fams, m') := renLevels m 0 (filter (fun v => lv_id v <> 0 /\ lv_id v <> -1) (fm_levs m)) (0, fams, m') in
  Ok (withMaps m' (keepOthers m fams) (fm_grps m)).

(** ** Groups from scratch. *)
(** MEDFileMesh.cxx 1823-1834. *)
Definition getMaxAbsFamilyId (m : fmesh) : res Z :=
  match fm_fams m with [] => Throw | fams => Ok (foldl (fun r (p : string * Z) => Z.max (Z.abs p.2) r) lowest fams) end.
(** MEDFileMesh.cxx 2520-2540: [applyLin(offset>0?1:-1,offset,0)] and the same map on the ids of the groups. *)
Definition translate (offset x : Z) : Z := if 0 <? offset then x + offset else - x + offset.
(** MEDFileMesh.cxx 2463-2487: [famInv] maps the id to its name; the ids of the groups are ids of the array. *)
Definition appendFamilyEntries (ids : list Z) (fidsOfGroups : list (list Z)) (names : list string) (m : fmesh) : fmesh :=
  withMaps m (foldl (fun f id => sput (familyName id) id f) (fm_fams m) ids)
    (foldl (fun gs '(g, fids) => foldl (fun gs id => sput g (default [] (sget g gs) ++ [if bool_decide (id ∈ ids) then familyName id else ""]) gs) gs fids)
       (fm_grps m) (zip names fidsOfGroups)).
(** MEDFileMesh.cxx 2414-2456 without renumbering; a null pointer among the groups is dereferenced (getName). *)
Definition setGroupsAtLevel (l : Z) (grps : list (option (string * da Z))) (m : fmesh) : res fmesh :=
  match grps with
  | [] => Ok m
  | _ =>
    ub_if existsb (fun o => match o with None => true | Some _ => false end) grps >>>
    let named := omap id grps in
    let names := named.*1 in
    throw_if negb (zlen (sset names) =? zlen grps) >>>
    throw_if inS "" names >>>
    match findLev l m with
    | None => Throw
    | Some v =>
      let* (fam, fids) := MakePartition (Some <$> named.*2) (lv_nb v) in
      let* fam := foldM (fun r x => match x with Some x => Ok (r ++ [x]) | None => UB end) fam [] in
      let* offset := match fm_fams m with [] => Ok 1 | _ => let* mx := getMaxAbsFamilyId m in Ok (mx + 1) end in
      let tr := translate (if l =? 1 then offset else - offset) in
      let fam := tr <$> fam in
      let fids := (fun f : list Z => tr <$> f) <$> fids in
      let* ids := getDifferentValues (vec fam) in
      Ok (putFam l (Some fam) (appendFamilyEntries ids fids names m))
    end
  end.

(** ** Names of families. *)
(** MEDFileMesh.cxx 694-728. *)
Definition assignFamilyNameWithGroupName (m : fmesh) : res fmesh :=
  let* (fams, groups) := foldM (fun '(fams, groups) (p : string * Z) =>
    match getGroupsOnFamily p.1 m with
    | [g] =>
      match sget g groups with
      | Some [n] =>
        throw_if bool_decide (g ∈ fams.*1) >>>
        ub_if negb (bool_decide (n = p.1)) >>>
        Ok (sput g p.2 fams, sput g [g] groups)
      | _ => throw_if bool_decide (p.1 ∈ fams.*1) >>> Ok (sput p.1 p.2 fams, groups)
      end
    | _ => throw_if bool_decide (p.1 ∈ fams.*1) >>> Ok (sput p.1 p.2 fams, groups)
    end) (fm_fams m) ([], fm_grps m) in
  Ok (withMaps m fams groups).

(** ** keepFamIdsOnlyOnLevs, MEDFileMesh.cxx 1446-1494. *)
Definition keepFamIdsOnlyOnLevs (famIds levs : list Z) (m : fmesh) : res (bool * fmesh) :=
  let* maxFamId := match fm_fams m with [] => Ok 1 | _ => let* mx := getMaxFamilyId m in Ok (mx + 1) end in
  let allFams := (fm_fams m).*1 in
  let* (ret, _, m) := foldM (fun '(ret, maxFamId, m) l =>
    let* a := fieldAt l m in
    match a with
    | None => Ok (ret, maxFamId, m)
    | Some a =>
      let* dv := getDifferentValues (vec a) in
      foldM (fun '(ret, maxFamId, m) x =>
        let* famName := getFamilyNameGivenId x m in
        let* zeName := CreateNameNotIn (familyName maxFamId) allFams in
        let m := addFamilyOnAllGroupsHaving famName zeName m in
        let m := withMaps m (sput zeName maxFamId (fm_fams m)) (fm_grps m) in
        let* a := fieldAt l m in
        let* (_, a) := changeValue x maxFamId (vec (default [] a)) in
        Ok (false, maxFamId + 1, putFam l (Some a) m)) (filter (fun x => x ∈ famIds) dv) (ret, maxFamId, m)
    end) (filter (fun l => l ∉ levs) (set_of (lv_id <$> fm_levs m))) (true, maxFamId, m) in
  Ok (ret, m).

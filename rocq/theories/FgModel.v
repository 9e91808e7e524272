(** Families and groups of a MED file mesh: the maps of MEDFileMesh and the family fields of its levels. *)
From stdpp Require Import strings pretty.
From Verif Require Import Base DataArray StdModel RenumModel SearchModel SetsModel PartModel.

(** ** std::map<std::string,V> and std::set<std::string>: lists sorted with std::string::operator< (bytes compared as unsigned). *)
Fixpoint sget {V} (k : string) (m : list (string * V)) : option V :=
  match m with [] => None | (k', v) :: m' => if bool_decide (k = k') then Some v else sget k m' end.
Fixpoint sput {V} (k : string) (v : V) (m : list (string * V)) : list (string * V) :=
  match m with
  | [] => [(k, v)]
  | (k', v') :: m' => if bool_decide (k = k') then (k, v) :: m' else if String.ltb k k' then (k, v) :: m else (k', v') :: sput k v m'
  end.
Fixpoint sdel {V} (k : string) (m : list (string * V)) : list (string * V) :=
  match m with [] => [] | (k', v') :: m' => if bool_decide (k = k') then m' else (k', v') :: sdel k m' end.
Definition sset (l : list string) : list string := (foldl (fun s k => sput k tt s) [] l).*1.
(** [std::find(v.begin(),v.end(),x) != v.end()]; erasing, replacing what std::find returns. *)
Definition inS (x : string) (l : list string) : bool := bool_decide (x ∈ l).
Fixpoint del1 (x : string) (l : list string) : list string :=
  match l with [] => [] | y :: l' => if bool_decide (x = y) then l' else y :: del1 x l' end.
Fixpoint rep1 (x z : string) (l : list string) : list string :=
  match l with [] => [] | y :: l' => if bool_decide (x = y) then z :: l' else y :: rep1 x z l' end.

(** ** The mesh.  One [level] per relative dimension of getNonEmptyLevelsExt (MEDFileMesh.cxx 3713-3741: nodes are level 1, cells
    0, -1, ...): its number of entities and its family field, [None] for a null pointer.  Simplifications: a level without any
    cell is not represented, two levels never share one array object, ids are unbounded integers, and what is left in the mesh
    by a method that throws is not described. *)
Record level := LV { lv_id : Z; lv_nb : Z; lv_fam : option (list Z) }.
Record fmesh := FM { fm_fams : list (string * Z); fm_grps : list (string * list string); fm_levs : list level }.
Definition withMaps (m : fmesh) fams grps : fmesh := FM fams grps (fm_levs m).
Definition findLev (l : Z) (m : fmesh) : option level := list_find (fun v => lv_id v = l) (fm_levs m) ≫= fun '(_, v) => Some v.
Definition putFam (l : Z) (a : option (list Z)) (m : fmesh) : fmesh :=
  FM (fm_fams m) (fm_grps m) ((fun v => if lv_id v =? l then LV (lv_id v) (lv_nb v) a else v) <$> fm_levs m).
(** MEDFileMesh.cxx 4028-4044: getMeshAtLevSafe refuses an unknown level of cells. *)
Definition fieldAt (l : Z) (m : fmesh) : res (option (list Z)) :=
  match findLev l m with Some v => Ok (lv_fam v) | None => if l =? 1 then Ok None else Throw end.

(** ** Names. *)
(** The candidates of the three attempts of MEDFileMesh::CreateNameNotIn, MEDFileMesh.cxx 2546-2583: the name, its proper
    suffixes, then [std::string tmp1(nameTry.at(0),i)] which is the character [i] repeated as many times as the code of the
    first character (a char; negative codes, from 128 on, are refused by std::string as a huge size), followed by the name. *)
Definition suffixes (s : string) : list string :=
  (fun ii => String.substring ii (String.length s - ii) s) <$> seq 1 (String.length s - 1).
Fixpoint repChar (n : nat) (c : Ascii.ascii) : string := match n with O => EmptyString | Datatypes.S n' => String.String c (repChar n' c) end.
Definition prefixed (c : Ascii.ascii) (s : string) : list string :=
  (fun i => repChar (Ascii.nat_of_ascii c) (Ascii.ascii_of_nat i) +:+ s) <$> seq 1 29.
Definition firstFree (cands avoid : list string) : option string := List.find (fun s => negb (inS s avoid)) cands.
Definition CreateNameNotIn (nameTry : string) (avoid : list string) : res string :=
  if negb (inS nameTry avoid) then Ok nameTry else
  match firstFree (suffixes nameTry) avoid with
  | Some s => Ok s
  | None =>
    let attempt3 := let s := foldl (fun a b => a +:+ b) "" avoid in if negb (inS s avoid) then Ok s else Throw in
    match nameTry with
    | EmptyString => attempt3
    | String.String c _ =>
      if (128 <=? Ascii.nat_of_ascii c)%nat then Throw else
      match firstFree (prefixed c nameTry) avoid with Some s => Ok s | None => attempt3 end
    end
  end.
(** [oss << "Family_" << id]. *)
Definition familyName (id : Z) : string := "Family_" +:+ pretty id.

(** ** Queries. *)
(** MEDFileMesh.cxx 2197-2206, 1304-1310: the first family in lexical order. *)
Definition nameOfId (id : Z) (fams : list (string * Z)) : option string :=
  list_find (fun p : string * Z => p.2 = id) fams ≫= fun '(_, p) => Some p.1.
Definition getFamilyNameGivenId (id : Z) (m : fmesh) : res string :=
  match nameOfId id (fm_fams m) with Some n => Ok n | None => Throw end.
Definition existsFamilyId (id : Z) (m : fmesh) : bool := match nameOfId id (fm_fams m) with Some _ => true | None => false end.
(** MEDFileMesh.cxx 1777-1790 and 1798-1817. *)
Definition getFamilyId (n : string) (m : fmesh) : res Z := match sget n (fm_fams m) with Some id => Ok id | None => Throw end.
Definition getFamiliesIds (fams : list string) (m : fmesh) : res (list Z) :=
  foldM (fun r n => let* id := getFamilyId n m in Ok (r ++ [id])) fams [].
(** MEDFileMesh.cxx 372-386, 394-414, 422-436. *)
Definition getFamiliesOnGroup (g : string) (m : fmesh) : res (list string) :=
  match sget g (fm_grps m) with Some l => Ok l | None => Throw end.
Definition getFamiliesOnGroups (grps : list string) (m : fmesh) : res (list string) :=
  let* l := foldM (fun r g => let* l := getFamiliesOnGroup g m in Ok (r ++ l)) grps [] in Ok (sset l).
Definition getFamiliesIdsOnGroup (g : string) (m : fmesh) : res (list Z) :=
  let* l := getFamiliesOnGroup g m in getFamiliesIds l m.
(** MEDFileMesh.cxx 485-500. *)
Definition getGroupsOnFamily (n : string) (m : fmesh) : list string := (filter (fun p : string * list string => n ∈ p.2) (fm_grps m)).*1.
(** MEDFileMesh.cxx 4357-4387 with MEDFileMeshLL.cxx 2084-2091, without renumbering: nodes without family field give no node;
    cells without family field dereference a null pointer. *)
Definition getFamiliesArr (l : Z) (fams : list string) (m : fmesh) : res (list Z) :=
  let* ids := getFamiliesIds fams m in
  match findLev l m with
  | None => if l =? 1 then Ok [] else Throw
  | Some v => match lv_fam v with
              | Some a => findIdsEqualList ids (vec a)
              | None => if l =? 1 then Ok [] else UB
              end
  end.
(** MEDFileMesh.cxx 2268-2296. *)
Definition getGroupsArr (l : Z) (grps : list string) (m : fmesh) : res (list Z) :=
  let* fams := getFamiliesOnGroups grps m in getFamiliesArr l fams m.
Definition getGroupArr (l : Z) (g : string) (m : fmesh) : res (list Z) := getGroupsArr l [g] m.
(** presenceOfValue, MEDCouplingMemArray.txx 5996-6014. *)
Definition presence (v : Z) (a : list Z) : res bool := let* i := findIdFirstEqual v (vec a) in Ok (negb (i =? -1)).
Definition presenceAny (vs a : list Z) : res bool := let* i := findIdFirstEqualAny vs (vec a) in Ok (negb (i =? -1)).
(** MEDFileMesh.cxx 584-609: an unknown family is an end iterator that is dereferenced. *)
Definition getGroupsOnSpecifiedLev (l : Z) (m : fmesh) : res (list string) :=
  let* a := fieldAt l m in
  match a with
  | None => Ok []
  | Some a =>
    let used := set_of a in
    foldM (fun ret (p : string * list string) =>
      let* found := foldM (fun (found : bool) n => if found then Ok true else
        match sget n (fm_fams m) with Some id => Ok (smem id used) | None => UB end) p.2 false in
      Ok (if found then ret ++ [p.1] else ret)) (fm_grps m) []
  end.

(** ** Edits of the maps. *)
(** MEDFileMesh.cxx 445-457, 468-480. *)
Definition setFamiliesOnGroup (g : string) (fams : list string) (m : fmesh) : fmesh :=
  withMaps m (foldl (fun f n => match sget n f with Some _ => f | None => sput n 0 f end) (fm_fams m) fams) (sput g fams (fm_grps m)).
Definition setFamiliesIdsOnGroup (g : string) (ids : list Z) (m : fmesh) : res fmesh :=
  let* fams := foldM (fun r id => let* n := getFamilyNameGivenId id m in Ok (r ++ [n])) ids [] in
  Ok (withMaps m (fm_fams m) (sput g fams (fm_grps m))).
(** MEDFileMesh.cxx 508-532. *)
Definition setGroupsOnFamily (n : string) (grps : list string) (m : fmesh) : res fmesh :=
  match sget n (fm_fams m) with
  | None => Throw
  | Some _ => Ok (withMaps m (fm_fams m) (foldl (fun gs g => match sget g gs with Some l => sput g (l ++ [n]) gs | None => sput g [n] gs end) (fm_grps m) grps))
  end.
(** MEDFileMesh.cxx 736-753. *)
Definition removeEmptyGroups (m : fmesh) : list string * fmesh :=
  ((filter (fun p : string * list string => p.2 = []) (fm_grps m)).*1,
   withMaps m (fm_fams m) (filter (fun p : string * list string => p.2 <> []) (fm_grps m))).
(** MEDFileMesh.cxx 755-783. *)
Definition removeGroupAtLevel (l : Z) (g : string) (m : fmesh) : res fmesh :=
  let* fams := getFamiliesOnGroup g m in
  let* ids := getFamiliesIdsOnGroup g m in
  let* a := fieldAt l m in
  match a with
  | None => Ok m
  | Some a =>
    let* vals := getDifferentValues (vec a) in
    let* kill := buildIntersection (vec ids) (Some (vec vals)) in
    match kill with
    | [] => Ok m
    | _ =>
      let* keep := foldM (fun r n => let* id := getFamilyId n m in let* b := presence id kill in Ok (if b then r else r ++ [n])) fams [] in
      Ok (withMaps m (fm_fams m) (sput g keep (fm_grps m)))
    end
  end.
(** MEDFileMesh.cxx 790-803, 810-832. *)
Definition removeGroup (g : string) (m : fmesh) : res fmesh :=
  match sget g (fm_grps m) with None => Throw | Some _ => Ok (withMaps m (fm_fams m) (sdel g (fm_grps m))) end.
Definition onGroups (f : list string -> list string) (grps : list (string * list string)) : list (string * list string) :=
  (fun p : string * list string => (p.1, f p.2)) <$> grps.
Definition removeFamily (n : string) (m : fmesh) : res fmesh :=
  match sget n (fm_fams m) with None => Throw | Some _ => Ok (withMaps m (sdel n (fm_fams m)) (onGroups (del1 n) (fm_grps m))) end.
(** MEDFileMesh.cxx 1107-1131, 1139-1153 (with 6672-6687 and changeValue), 1161-1193. *)
Definition changeGroupName (o n : string) (m : fmesh) : res fmesh :=
  match sget o (fm_grps m) with
  | None => Throw
  | Some l => match sget n (fm_grps m) with Some _ => Throw | None => Ok (withMaps m (fm_fams m) (sput n l (sdel o (fm_grps m)))) end
  end.
Definition changeFamilyId (o n : Z) (m : fmesh) : res fmesh :=
  let* levs := foldM (fun r v => match lv_fam v with
    | None => Ok (r ++ [v])
    | Some a => let* (_, a) := changeValue o n (vec a) in Ok (r ++ [LV (lv_id v) (lv_nb v) (Some a)])
    end) (fm_levs m) [] in
  Ok (FM ((fun p : string * Z => (p.1, if p.2 =? o then n else p.2)) <$> fm_fams m) (fm_grps m) levs).
Definition changeFamilyName (o n : string) (m : fmesh) : res fmesh :=
  match sget o (fm_fams m) with
  | None => Throw
  | Some id => match sget n (fm_fams m) with
               | Some _ => Throw
               | None => Ok (withMaps m (sput n id (sdel o (fm_fams m))) (onGroups (rep1 o n) (fm_grps m)))
               end
  end.
(** MEDFileMesh.cxx 6274-6280. *)
Definition setFamilyNameAttachedOnId (id : Z) (n : string) (m : fmesh) : res fmesh :=
  let* o := getFamilyNameGivenId id m in Ok (withMaps m (sput n id (sdel o (fm_fams m))) (fm_grps m)).
(** MEDFileMesh.cxx 1326-1331, 1333-1350, 1357-1386. *)
Definition setFamilyId (n : string) (id : Z) (m : fmesh) : fmesh := withMaps m (sput n id (fm_fams m)) (fm_grps m).
Definition setFamilyIdUnique (n : string) (id : Z) (m : fmesh) : res fmesh :=
  if bool_decide (Exists (fun p : string * Z => p.2 = id /\ p.1 <> n) (fm_fams m)) then Throw else Ok (setFamilyId n id m).
Definition addFamily (n : string) (id : Z) (m : fmesh) : res fmesh :=
  match sget n (fm_fams m) with
  | None => if existsFamilyId id m then Throw else Ok (setFamilyId n id m)
  | Some id' => if id' =? id then Ok m else Throw
  end.
(** MEDFileMesh.cxx 1505-1534, 1541-1554. *)
Definition addFamilyOnGrp (g n : string) (m : fmesh) : res fmesh :=
  if bool_decide (g = "") || bool_decide (n = "") then Throw else
  match sget n (fm_fams m) with
  | None => Throw
  | Some _ => Ok (withMaps m (fm_fams m) (match sget g (fm_grps m) with
                | None => sput g [n] (fm_grps m)
                | Some l => if inS n l then fm_grps m else sput g (l ++ [n]) (fm_grps m)
                end))
  end.
Definition addFamilyOnAllGroupsHaving (n o : string) (m : fmesh) : fmesh :=
  withMaps m (fm_fams m) (onGroups (fun l => if inS n l then l ++ [o] else l) (fm_grps m)).
(** MEDFileMesh.cxx 1683-1700. *)
Definition changeAllGroups (n : string) (news : list string) (grps : list (string * list string)) : list (string * list string) :=
  onGroups (fun l => if inS n l then del1 n l ++ news else l) grps.
(** MEDFileMesh.cxx 1725-1749: (the name, created, the families afterwards). *)
Definition findOrCreate (id : Z) (fams : list (string * Z)) : res (string * bool * list (string * Z)) :=
  match nameOfId id fams with
  | Some n => Ok (n, false, fams)
  | None => let* n := CreateNameNotIn (familyName id) fams.*1 in Ok (n, true, sput n id fams)
  end.
(** MEDFileMesh.cxx 1399-1435. *)
Definition createGroupOnAll (l : Z) (g : string) (m : fmesh) : res fmesh :=
  match findLev l m with
  | None => Throw
  | Some v =>
    match sget g (fm_grps m) with
    | Some _ => Throw
    | None => match lv_fam v with
      | None => Throw
      | Some a =>
        let* ids := getDifferentValues (vec a) in
        let* (names, fams) := foldM (fun '(names, fams) id =>
          let* (n, _, fams) := findOrCreate id fams in Ok (names ++ [n], fams)) ids ([], fm_fams m) in
        Ok (withMaps m fams (sput g names (fm_grps m)))
      end
    end
  end.

(** ** addGroup. *)
(** -std::numeric_limits<mcIdType>::max(). *)
Definition lowest : Z := -9223372036854775807.
(** getMaxValue, MEDCouplingMemArray.txx 2587-2606. *)
Definition maxValue (a : list Z) : res Z := match a with [] => Throw | x :: a' => Ok (foldl Z.max x a') end.
(** MEDFileMesh.cxx 3838-3860: the absolute value of the maximum of each array. *)
Definition maxAbsInArrays (m : fmesh) : res Z :=
  foldM (fun r v => match lv_fam v with None => Ok r | Some a => let* x := maxValue a in Ok (Z.max r (Z.abs x)) end) (fm_levs m) lowest.
(** MEDFileMesh.cxx 1878-1886. *)
Definition theMaxAbs (m : fmesh) : res Z :=
  let m1 := foldl (fun r (p : string * Z) => Z.max (Z.abs p.2) r) lowest (fm_fams m) in
  let* m2 := maxAbsInArrays m in Ok (Z.max m1 m2).
(** setPartOfValuesSimple3(v,ids,0,1,1) on an array with one component: ids out of range are refused. *)
Definition setIds (v : Z) (ids a : list Z) : res (list Z) :=
  foldM (fun a i => if (0 <=? i) && (i <? zlen a) then wr a i v else Throw) ids a.
(** MEDFileMesh.cxx 1556-1571. *)
Definition clash (a : list Z) (g : string) (m : fmesh) : res bool :=
  match sget g (fm_grps m) with None => Ok false | Some _ => let* ids := getFamiliesIdsOnGroup g m in presenceAny ids a end.
(** One turn of the loop of MEDFileMesh.cxx 1606-1657; the state is (familyIds with idsPerfamiliyIds, families, groups, fams, maxVal).
    [sg] is the sign of the new ids, [others] the family fields of the other levels, [famIds] those of the entities of [ids]. *)
Definition groupStep (m : fmesh) (sg : Z) (ids a famIds : list Z) (others : list (list Z))
    '((writes, families, groups, fams, maxVal) : list (Z * list Z) * list (string * Z) * list (string * list string) * list string * Z) (famId : Z)
    : res (list (Z * list Z) * list (string * Z) * list (string * list string) * list string * Z) :=
  let* pos := findIdsEqual famId (vec famIds) in
  let* ids2 := mySelectByTupleId (vec ids) pos in
  let* ids2 := foldM (fun r x => match x with Some x => Ok (r ++ [x]) | None => UB end) (da_vals ids2) [] in
  let* ids1 := findIdsEqual famId (vec a) in
  let* ret0 := buildSubstractionOptimized (vec ids1) (Some (vec ids2)) in
  match ret0 with
  | [] =>
    let* present := foldM (fun (b : bool) o => if b then Ok true else presence famId o) others false in
    if negb present && negb (famId =? 0)
    then let* (n, _, families) := findOrCreate famId families in
         Ok (writes ++ [(famId, ret0)], families, groups, fams ++ [n], maxVal)
    else let* (n, _, families) := findOrCreate (sg * maxVal) families in
         Ok (writes ++ [(sg * maxVal, ids2)], families,
             (if existsFamilyId famId m
              then let o := default "" (nameOfId famId (fm_fams m)) in changeAllGroups o [o; n] groups else groups), fams ++ [n], maxVal + 1)
  | _ =>
    let* (n2, _, families) := findOrCreate (sg * (maxVal + 1)) families in
    let writes := writes ++ [(sg * maxVal, ret0); (sg * (maxVal + 1), ids2)] in
    if existsFamilyId famId m
    then let* (n1, _, families) := findOrCreate (sg * maxVal) families in
         Ok (writes, families, changeAllGroups (default "" (nameOfId famId (fm_fams m))) [n1; n2] groups, fams ++ [n2], maxVal + 2)
    else Ok (writes, families, groups, fams ++ [n2], maxVal + 2)
  end.
(** MEDFileMesh.cxx 1577-1672. [ids] is [None] for a null pointer; [a] is the family field of level [l]. *)
Definition addGroupUnderground (isNode : bool) (ids : option (string * da Z)) (l : Z) (a : list Z) (m : fmesh) : res fmesh :=
  match ids with
  | None => Throw
  | Some (g, ids) =>
    throw_if bool_decide (g = "") >>>
    let* mono := isStrictlyMonotonic true ids in
    throw_if negb mono >>>
    let* c := clash a g m in
    throw_if c >>>
    let others := omap lv_fam (filter (fun v => lv_id v <> l) (fm_levs m)) in
    let* famIds := mySelectByTupleIdSafe (vec a) (da_vals ids) in
    let* famIds := foldM (fun r x => match x with Some x => Ok (r ++ [x]) | None => UB end) (da_vals famIds) [] in
    let* diff := getDifferentValues (vec famIds) in
    let* mx := theMaxAbs m in
    let sg := if isNode then 1 else -1 in
    let* (writes, families, groups, fams, _) :=
      foldM (groupStep m sg (da_vals ids) a famIds others) diff ([], fm_fams m, fm_grps m, [], mx + 1) in
    let* a := foldM (fun a '(v, w) => setIds v w a) writes a in
    let groups := match sget g groups with Some fs => sput g (fs ++ fams) groups | None => sput g fams groups end in
    Ok (putFam l (Some a) (withMaps m families groups))
  end.
(** MEDFileMesh.cxx 6218-6232, 6250-6271, MEDFileMeshLL.cxx 2147-2157: a missing family field is created, filled with 0. *)
Definition addGroup (l : Z) (ids : option (string * da Z)) (m : fmesh) : res fmesh :=
  match findLev l m with
  | None => Throw
  | Some v =>
    let a := match lv_fam v with Some a => a | None => replicate (Z.to_nat (lv_nb v)) 0 end in
    addGroupUnderground (l =? 1) ids l a (putFam l (Some a) m)
  end.

(** ** Cleaning. *)
(** MEDFileMesh.cxx 1941-1957: [None] when no level has a family field. *)
Definition idsInUse (m : fmesh) : res (option (list Z)) :=
  foldM (fun (r : option (list Z)) v => match lv_fam v with
    | None => Ok r
    | Some a => let* dv := getDifferentValues (vec a) in
                match r with Some s => let* u := buildUnion (vec dv) (Some (vec s)) in Ok (Some u) | None => Ok (Some dv) end
    end) (fm_levs m) None.
(** MEDFileMesh.cxx 857-893. *)
Definition removeOrphanFamilies (m : fmesh) : res (list string * fmesh) :=
  let* used := idsInUse m in
  match used with
  | None => Ok ((fm_fams m).*1, withMaps m [] [])
  | Some used =>
    let* (ret, famMap, grps) := foldM (fun '(ret, famMap, grps) (p : string * Z) =>
      let* b := presence p.2 used in
      if b then Ok (ret, sput p.1 p.2 famMap, grps)
      else let* grps := foldM (fun grps g => match sget g grps with
             | None => UB
             | Some l => if inS p.1 l then Ok (sput g (del1 p.1 l) grps) else UB
             end) (getGroupsOnFamily p.1 m) grps in
           Ok (ret ++ [p.1], famMap, grps)) (fm_fams m) ([], [], fm_grps m) in
    match ret with [] => Ok ([], m) | _ => Ok (ret, withMaps m famMap grps) end
  end.
(** MEDFileMesh.cxx 842-847. *)
Definition removeOrphanGroups (m : fmesh) : res (list string * fmesh) :=
  let* (_, m) := removeOrphanFamilies m in Ok (removeEmptyGroups m).
(** MEDFileMesh.cxx 1084-1098. *)
Definition zeroName : string := "FAMILLE_ZERO".
Definition zeroInGroup (m : fmesh) : bool := bool_decide (Exists (fun p : string * list string => zeroName ∈ p.2) (fm_grps m)).
(** MEDFileMesh.cxx 903-920. *)
Definition removeFamiliesReferedByNoGroups (m : fmesh) : fmesh :=
  withMaps m (filter (fun p : string * Z => p.1 = zeroName \/ Exists (fun q : string * list string => p.1 ∈ q.2) (fm_grps m)) (fm_fams m)) (fm_grps m).
(** MEDFileMesh.cxx 933-983. *)
Definition rearrangeFamilies (m : fmesh) : res fmesh :=
  throw_if zeroInGroup m >>>
  let m := removeFamiliesReferedByNoGroups m in
  throw_if bool_decide (Exists (fun p : string * Z => p.2 = 0 /\ getGroupsOnFamily p.1 m <> []) (fm_fams m)) >>>
  let refed := set_of ((fm_fams m).*2) in
  let levs := (fun v => match lv_fam v with
    | None => v
    | Some a => LV (lv_id v) (lv_nb v) (Some ((fun x => if smem x refed then x else 0) <$> a))
    end) <$> fm_levs m in
  let* (_, m) := removeOrphanFamilies (FM (fm_fams m) (fm_grps m) levs) in Ok m.

(** ** Histories: the edits below, in any order. *)
Inductive edit :=
| AddGroup (l : Z) (g : string) (ids : list Z) | RemoveGroup (g : string) | RenameGroup (o n : string)
| RemoveGroupAt (l : Z) (g : string) | RenameFamily (o n : string) | Rearrange.
Definition doEdit (m : fmesh) (e : edit) : res fmesh :=
  match e with
  | AddGroup l g ids => addGroup l (Some (g, vec ids)) m
  | RemoveGroup g => removeGroup g m
  | RenameGroup o n => changeGroupName o n m
  | RemoveGroupAt l g => removeGroupAtLevel l g m
  | RenameFamily o n => changeFamilyName o n m
  | Rearrange => rearrangeFamilies m
  end.

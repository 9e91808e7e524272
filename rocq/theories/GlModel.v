(** Gauss localizations of the discretizations of fields: MEDCouplingGaussLocalization.cxx and the class MEDCouplingFieldDiscretizationGauss of
    MEDCouplingFieldDiscretization.cxx, the part on the localization of each cell. *)
From Coq Require Import QArith Qabs.
From Verif Require Import Base DataArray IndexModel SkyModel CellTable UmModel UcModel.
Local Open Scope Z_scope.

(** MEDCouplingGaussLocalization.hxx 84-89.  Simplification: doubles are rationals. *)
Record gloc := GL { gl_type : Z; gl_ref : list Q; gl_gauss : list Q; gl_w : list Q }.
(** MEDCouplingFieldDiscretization.hxx: _discr_per_cell of the class PerCell and _loc of the class Gauss.
    Simplification: the array of ids, when set, is allocated with one component. *)
Record gauss := GD { gd_dpc : option (list Z); gd_loc : list gloc }.

(** MEDCouplingGaussLocalization.cxx 59-84: checkConsistencyLight.  Simplification: the dimension and number of nodes of the model of NORM_ERROR are
    those of the table (4294967295), the code converts them to -1. *)
Definition checkLoc (l : gloc) : res unit :=
  let* cm := GetCellModel (gl_type l) in
  throw_if negb (cm_dyn cm) && negb (zlen (gl_ref l) =? cm_nbpts cm * cm_dim cm) >>>
  throw_if negb (zlen (gl_gauss l) =? cm_dim cm * zlen (gl_w l)) >>> Ok tt.
(** MEDCouplingGaussLocalization.cxx 35-45: the constructor. *)
Definition newLoc (type : Z) (ref gs w : list Q) : res gloc := let* _ := checkLoc (GL type ref gs w) in Ok (GL type ref gs w).
(** MEDCouplingGaussLocalization.cxx 403-413; std::max_element of an empty range is its end, which is read.
    The comparison of doubles. *)
Definition Qltb (x y : Q) : bool := negb (Qle_bool y x).
Definition maxElement (x : Q) (r : list Q) : Q := foldl (fun m y => if Qltb m y then y else m) x r.
Definition AreAlmostEqual (v1 v2 : list Q) (eps : Q) : res bool :=
  if negb (zlen v1 =? zlen v2) then Ok false else
  match zip_with (fun a b => Qabs (a - b)) v1 v2 with
  | [] => UB
  | x :: r => Ok (Qltb (maxElement x r) eps)
  end.
(** MEDCouplingGaussLocalization.cxx 134-146. *)
Definition isEqualLoc (a b : gloc) (eps : Q) : res bool :=
  if negb (gl_type a =? gl_type b) then Ok false else
  let* e := AreAlmostEqual (gl_ref a) (gl_ref b) eps in
  if negb e then Ok false else
  let* e := AreAlmostEqual (gl_gauss a) (gl_gauss b) eps in
  if negb e then Ok false else
  AreAlmostEqual (gl_w a) (gl_w b) eps.

(** MEDCouplingUMesh.cxx 3845-3858. *)
Definition getTypeOfCell (m : umesh) (i : Z) : res Z :=
  unchecked m (fun conn connI => if i <? zlen connI - 1 then let* a := rd connI i in rd conn a else Throw).

(** MEDCouplingFieldDiscretization.cxx 1795-1810; DFT_INVALID_LOCID_VALUE is -1 (1478). *)
Definition buildDiscrPerCellIfNecessary (m : umesh) (g : gauss) : res gauss :=
  match gd_dpc g with
  | Some _ => Ok g
  | None => let* nb := getNumberOfCells m in Ok (GD (Some (replicate (Z.to_nat nb) (-1))) (gd_loc g))
  end.
(** MEDCouplingFieldDiscretization.cxx 1812-1824. *)
Definition checkNoOrphanCells (g : gauss) : res unit :=
  match gd_dpc g with
  | None => Throw
  | Some dpc => throw_if negb (zlen (List.filter (fun v => v =? -1) dpc) =? 0) >>> Ok tt
  end.

(** MEDCouplingFieldDiscretization.cxx 2960-2986. *)
Definition zipGaussLocalizations (g : gauss) : res gauss :=
  match gd_dpc g with
  | None => UB
  | Some dpc =>
    let sz := zlen (gd_loc g) in
    let* tmp := foldM (fun tmp w => if 0 <=? w then wr tmp w 1 else Ok tmp) dpc (replicate (Z.to_nat sz) (-2)) in
    let* (tmp, fid) := forZ 0 sz (fun i '(tmp, fid) =>
      let* t := rd tmp i in
      if negb (t =? -2) then (let* tmp := wr tmp i fid in Ok (tmp, fid + 1)) else Ok (tmp, fid)) (tmp, 0) in
    if fid =? sz then Ok g else
    let* dpc := forZ 0 (zlen dpc) (fun i d =>
      let* w := rd d i in
      if 0 <=? w then (let* t := rd tmp w in wr d i t) else Ok d) dpc in
    let* tmpLoc := forZ 0 sz (fun i acc =>
      let* t := rd tmp i in
      if negb (t =? -2) then (let* l := rd (gd_loc g) i in Ok (acc ++ [l])) else Ok acc) [] in
    Ok (GD (Some dpc) tmpLoc)
  end.

(** An operation on the object: its outcome and the object afterwards.  [tryOr r st k]: when [r] fails the object is left as [st]. *)
Definition tryOr {A} (r : res A) (st : gauss) (k : A -> res unit * gauss) : res unit * gauss :=
  match r with Ok a => k a | Throw => (Throw, st) | UB => (UB, st) | Fuel => (Fuel, st) end.
(** MEDCouplingFieldDiscretization.cxx 2712-2744. *)
Definition setGaussLocalizationOnType (m : umesh) (type : Z) (ref gs w : list Q) (g : gauss) : res unit * gauss :=
  tryOr (let* cm := GetCellModel type in let* d := getMeshDimension m in throw_if negb (cm_dim cm =? d) >>> buildDiscrPerCellIfNecessary m g) g (fun g =>
  tryOr (newLoc type ref gs w) g (fun elt =>
  let id := zlen (gd_loc g) in
  tryOr (match gd_dpc g with
    | None => UB
    | Some dpc =>
      let* nbCells := getNumberOfCells m in
      let* dpc := forZ 0 nbCells (fun i dpc => let* t := getTypeOfCell m i in if t =? type then wr dpc i id else Ok dpc) dpc in
      zipGaussLocalizations (GD (Some dpc) (gd_loc g ++ [elt]))
    end) g (fun g => (Ok tt, g)))).
(** MEDCouplingFieldDiscretization.cxx 2746-2782; [ids] is the range [begin,end). *)
Definition setGaussLocalizationOnCells (m : umesh) (ids : list Z) (ref gs w : list Q) (g : gauss) : res unit * gauss :=
  tryOr (buildDiscrPerCellIfNecessary m g) g (fun g =>
  match ids with
  | [] => (Throw, g)
  | i0 :: rest =>
    tryOr (let* type := getTypeOfCell m i0 in newLoc type ref gs w) g (fun elt =>
    let id := zlen (gd_loc g) in
    tryOr (
      let* _ := foldM (fun _ i => let* t := getTypeOfCell m i in throw_if negb (t =? gl_type elt) >>> Ok tt) rest tt in
      match gd_dpc g with
      | None => UB
      | Some dpc =>
        let* dpc := foldM (fun dpc i => wr dpc i id) ids dpc in
        zipGaussLocalizations (GD (Some dpc) (gd_loc g ++ [elt]))
      end) g (fun g => (Ok tt, g)))
  end).
(** MEDCouplingFieldDiscretization.cxx 2784-2793. *)
Definition clearGaussLocalizations (g : gauss) : gauss := GD None [].
(** MEDCouplingFieldDiscretization.cxx 2795-2807: std::vector::resize with localizations of type NORM_ERROR. *)
Definition setGaussLocalization (locId : Z) (l : gloc) (g : gauss) : res gauss :=
  throw_if locId <? 0 >>>
  let sz := zlen (gd_loc g) in
  let loc := if sz <=? locId then gd_loc g ++ replicate (Z.to_nat (locId + 1 - sz)) (GL NORM_ERROR [] [] []) else gd_loc g in
  let* loc := wr loc locId l in
  Ok (GD (gd_dpc g) loc).
(** MEDCouplingFieldDiscretization.cxx 2809-2818. *)
Definition resizeLocalizationVector (newSz : Z) (g : gauss) : res gauss :=
  throw_if newSz <? 0 >>>
  let sz := zlen (gd_loc g) in
  Ok (GD (gd_dpc g) (if newSz <? sz then take (Z.to_nat newSz) (gd_loc g) else gd_loc g ++ replicate (Z.to_nat (newSz - sz)) (GL NORM_ERROR [] [] []))).

(** MEDCouplingFieldDiscretization.cxx 2820-2825 and 2883-2895. *)
Definition getGaussLocalization (g : gauss) (locId : Z) : res gloc :=
  throw_if (locId <? 0) || (zlen (gd_loc g) <=? locId) >>> rd (gd_loc g) locId.
(** MEDCouplingFieldDiscretization.cxx 2833-2842. *)
Definition getGaussLocalizationIdOfOneCell (g : gauss) (cellId : Z) : res Z :=
  match gd_dpc g with None => Throw | Some dpc => let* locId := rd dpc cellId in throw_if locId <? 0 >>> Ok locId end.
(** MEDCouplingFieldDiscretization.cxx 2855-2867: a std::set filled with ascending ids. *)
Definition getGaussLocalizationIdsOfOneType (g : gauss) (type : Z) : res (list Z) :=
  match gd_dpc g with
  | None => Throw
  | Some _ => forZ 0 (zlen (gd_loc g)) (fun id ret => let* l := rd (gd_loc g) id in Ok (if gl_type l =? type then ret ++ [id] else ret)) []
  end.
(** MEDCouplingFieldDiscretization.cxx 2844-2853. *)
Definition getGaussLocalizationIdOfOneType (g : gauss) (type : Z) : res Z :=
  let* ret := getGaussLocalizationIdsOfOneType g type in
  match ret with [] => Throw | [x] => Ok x | _ => Throw end.
(** MEDCouplingFieldDiscretization.cxx 2869-2881. *)
Definition getCellIdsHavingGaussLocalization (g : gauss) (locId : Z) : res (list Z) :=
  throw_if (locId <? 0) || (zlen (gd_loc g) <=? locId) >>>
  match gd_dpc g with
  | None => UB
  | Some dpc => forZ 0 (zlen dpc) (fun i ret => let* v := rd dpc i in Ok (if v =? locId then ret ++ [i] else ret)) []
  end.

(** MEDCouplingMemArray.txx 4670-4697. *)
Definition transformWithIndArr (d : list Z) (ind : list Z) : res (list Z) :=
  forZ 0 (zlen d) (fun i d => let* v := rd d i in if (0 <=? v) && (v <? zlen ind) then (let* w := rd ind v in wr d i w) else Throw) d.
(** The search of an equal localization, MEDCouplingFieldDiscretization.cxx 2682-2692: its position, or the number of localizations. *)
Fixpoint findLoc (l : gloc) (locs : list gloc) (k : Z) : res Z :=
  match locs with
  | [] => Ok k
  | x :: r => let* e := isEqualLoc l x (1 # 10000000000) in if e : bool then Ok k else findLoc l r (k + 1)
  end.
(** MEDCouplingFieldDiscretization.cxx 2662-2710; all the discretizations are of class Gauss. *)
Definition aggregateGauss (fds : list gauss) : res gauss :=
  match fds with
  | [] => Throw
  | _ =>
    let* (loc, discPerCells) := foldM (fun '(loc, discPerCells) itc =>
      let* (loc, newLocId) := foldM (fun '(loc, newLocId) l =>
        let* k := findLoc l loc 0 in
        Ok (if k =? zlen loc then loc ++ [l] else loc, newLocId ++ [k])) (gd_loc itc) (loc, []) in
      match gd_dpc itc with
      | None => Throw
      | Some dpc => let* dpc2 := transformWithIndArr dpc newLocId in Ok (loc, discPerCells ++ [dpc2])
      end) fds ([], []) in
    let* d := Aggregate ((fun d => Some (vec d)) <$> discPerCells) in
    let* dpc3 := initialised (da_vals d) in
    Ok (GD (Some dpc3) loc)
  end.

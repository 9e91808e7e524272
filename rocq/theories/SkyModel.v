(** MEDCouplingSkyLineArray: two and three level skyline arrays. *)
From Verif Require Import Base DataArray StdModel SlicesModel RenumModel IndexModel LayoutModel.

(** The arrays _super_index (empty when there are two levels), _index and _values, MEDCouplingSkyLineArray.hxx 142-147.  The sharing of
    the arrays between objects is not modelled. *)
Record sky := Sky { s_super : list Z; s_index : list Z; s_values : list Z }.

(** DataArray::reAlloc: keeps the beginning; new cells are not initialised. *)
Definition reAllocC {A} (l : list (option A)) (n : Z) : res (list (option A)) :=
  ub_if n <? 0 >>> Ok (take (Z.to_nat n) l ++ malloc A (n - zlen l)).
(** The array must be initialised entirely: a cell left without value counts as undefined behaviour. *)
Definition initialised {A} (l : list (option A)) : res (list A) :=
  if forallb (fun x => match x with Some _ => true | None => false end) l then Ok (omap id l) else UB.
Definition reAlloc {A} (l : list A) (n : Z) : res (list A) := let* l := reAllocC (Some <$> l) n in initialised l.
(** [for(ii=a;ii<b;ii++) p[ii] += d]. *)
Definition addFrom (l : list Z) (a b d : Z) : res (list Z) := forZ a b (fun ii l => let* x := rd l ii in wr l ii (x + d)) l.

(** MEDCouplingSkyLineArray.cxx 258-267, 269-278, 280-289, 291-302. *)
Definition checkSuperIndex {A} (s : sky) (k : res A) : res A := throw_if zlen (s_super s) =? 0 >>> k.
Definition validSuperIndex {A} (s : sky) (i : Z) (k : res A) : res A := throw_if (i <? 0) || (zlen (s_super s) <=? i) >>> k.
Definition validIndex {A} (s : sky) (i : Z) (k : res A) : res A := throw_if (i <? 0) || (zlen (s_index s) <=? i) >>> k.
Definition validSuperIndexAndIndex {A} (s : sky) (i j : Z) (k : Z -> res A) : res A :=
  validSuperIndex s i (let* si := rd (s_super s) i in
  throw_if (si + j <? 0) || (zlen (s_index s) <=? si + j) >>> k (si + j)).

(** Lines 544-554; 558-566 returns the position and the size instead of a copy. *)
Definition getSimplePackSafe (s : sky) (k : Z) : res (list Z) :=
  throw_if (k <? 0) || (zlen (s_index s) <=? k) >>>
  let* b := rd (s_index s) (k + 1) in let* a := rd (s_index s) k in saveBlock (s_values s) a b.

(** Lines 577-611.  The loop on the packs of a super pack stops at the first match. *)
Definition findPackIds (s : sky) (supers pack : list Z) : res (list Z) :=
  checkSuperIndex s (
  throw_if zlen pack =? 0 >>>
  foldM (fun out sp =>
    let* a := rd (s_super s) sp in let* b := rd (s_super s) (sp + 1) in
    let* r := foldM (fun r idx => if (r : Z) =? -1 then
        let* e := rd (s_index s) (idx + 1) in let* f := rd (s_index s) idx in
        if zlen pack =? e - f then
          let* p := saveBlock (s_values s) f e in
          Ok (if bool_decide (p = pack) then idx - a else r)
        else Ok r
      else Ok r) (seqZ a (b - a)) (-1) in
    Ok (out ++ [r])) supers []).

(** Lines 618-640. *)
Definition deletePack (strict : bool) (s : sky) (superIdx idx : Z) : res sky :=
  checkSuperIndex s (validSuperIndexAndIndex s superIdx idx (fun k =>
  let* start := rd (s_index s) k in let* stop := rd (s_index s) (k + 1) in
  let nv := zlen (s_values s) in
  let* v := moveIn strict (s_values s) stop nv start in
  let* v := reAlloc v (nv - (stop - start)) in
  let nt := zlen (s_index s) in
  let* i := moveIn strict (s_index s) (k + 1) nt k in
  let* i := reAlloc i (nt - 1) in
  let* i := addFrom i k (nt - 1) (- (stop - start)) in
  let* u := addFrom (s_super s) (superIdx + 1) (zlen (s_super s)) (-1) in
  Ok (Sky u i v))).

(** Lines 642-666. *)
Definition deleteSimplePack (strict : bool) (s : sky) (idx : Z) : res sky :=
  validIndex s idx (
  let* start := rd (s_index s) idx in let* stop := rd (s_index s) (idx + 1) in
  let nv := zlen (s_values s) in
  let delta := start - stop in
  let* v := (if delta <? 0 then let* v := moveIn strict (s_values s) stop nv start in reAlloc v (nv + delta) else Throw) in
  let nt := zlen (s_index s) in
  let* i := moveIn strict (s_index s) (idx + 1) nt idx in
  let* i := addFrom i idx (nt - 1) delta in
  let* i := reAlloc i (nt - 1) in
  Ok (Sky (s_super s) i v)).

(** Lines 668-712.  [packs]: the contents of the arrays given.  The packs go through std::set. *)
Definition replaceSimplePacks (s : sky) (ids : list Z) (packs : list (list Z)) : res sky :=
  if zlen ids =? 0 then Ok s else
  throw_if existsb (fun i => (i <? 0) || (zlen (s_index s) <=? i)) ids >>>
  throw_if negb (zlen ids =? zlen packs) >>>
  let nt := zlen (s_index s) in
  let* sets := forZ 0 (nt - 1) (fun ii sets =>
    let* a := rd (s_index s) ii in let* b := rd (s_index s) (ii + 1) in
    let* p := saveBlock (s_values s) a b in Ok (sets ++ [set_of p])) [] in
  let* (sets, _) := foldM (fun '(sets, ii) i => let* p := rd packs ii in let* sets := wr sets i (set_of p) in Ok (sets, ii + 1)) ids (sets, 0) in
  let* i := wr (s_index s) 0 0 in
  let* (i, _, valSz) := foldM (fun '(i, iP, valSz) (values : list Z) =>
    let valSz := valSz + zlen values in let* i := wr i (iP + 1) valSz in Ok (i, iP + 1, valSz)) sets (i, 0, 0) in
  let* v := reAllocC (Some <$> s_values s) valSz in
  let* (v, _) := foldM (fun '(v, iP) (values : list Z) => let* a := rd i iP in let* v := restoreBlock v a (Some <$> values) in Ok (v, iP + 1)) sets (v, 0) in
  let* v := initialised v in
  Ok (Sky (s_super s) i v).

(** Lines 714-763. *)
Definition deleteSimplePacks (strict : bool) (s : sky) (ids : list Z) : res sky :=
  throw_if existsb (fun i => (i <? 0) || (zlen (s_index s) <=? i)) ids >>>
  let dels := set_of ids in
  let nv := zlen (s_values s) in
  let* (v, e, st) := foldM (fun '(v, e, st) ii =>
    let* start := rd (s_index s) ii in
    let* v := (if negb (e =? 0) then moveIn strict v e start st else Ok v) in
    let* e' := rd (s_index s) (ii + 1) in
    Ok (v, e', st + (start - e))) dels (s_values s, 0, 0) in
  let* v := (if negb (e =? 0) then moveIn strict v e nv st else Ok v) in
  let* v := reAlloc v (nv - (e - st)) in
  let nt := zlen (s_index s) in
  let* (i, e, st, off, deleted) := foldM (fun '(i, e, st, off, deleted) ii =>
    let* i := (if negb (e =? 0) then let* i := moveIn strict i e ii st in addFrom i st ii (- off) else Ok i) in
    let* b := rd i (ii + 1) in let* a := rd i ii in
    Ok (i, ii + 1, ii - deleted, off + (b - a), deleted + 1)) dels (s_index s, 0, 0, 0, 0) in
  let* i := (if negb (e =? 0) then let* i := moveIn strict i e nt st in addFrom i st nt (- off) else Ok i) in
  let* i := reAlloc i (nt - deleted) in
  Ok (Sky (s_super s) i v).

(** Lines 768-797. *)
Definition pushBackPack (strict : bool) (s : sky) (superIdx : Z) (pack : list Z) : res sky :=
  checkSuperIndex s (validSuperIndex s superIdx (
  let sz := zlen pack in
  let* e := rd (s_super s) (superIdx + 1) in
  let nv := zlen (s_values s) in
  let* v := reAllocC (Some <$> s_values s) (nv + sz) in
  let* p := rd (s_index s) e in
  let* v := moveIn strict v p nv (p + sz) in
  let* v := restoreBlock v p (Some <$> pack) in
  let* v := initialised v in
  let nt := zlen (s_index s) in
  let* i := reAllocC (Some <$> s_index s) (nt + 1) in
  let* i := moveIn strict i (e + 1) nt (e + 2) in
  let* x := rdc i e in
  let* i := wrc i (e + 1) (x + sz) in
  let* i := initialised i in
  let* i := addFrom i (e + 2) (nt + 1) sz in
  let* u := addFrom (s_super s) (superIdx + 1) (zlen (s_super s)) 1 in
  Ok (Sky u i v))).

(** The common part of replaceSimplePack (lines 806-830) and replacePack (843-866), [k] being the absolute pack id. *)
Definition replaceAt (strict : bool) (s : sky) (k : Z) (pack : list Z) : res sky :=
  let* start := rd (s_index s) k in let* stop := rd (s_index s) (k + 1) in
  let nv := zlen (s_values s) in
  let delta := zlen pack - (stop - start) in
  let v := Some <$> s_values s in
  let* v := (if negb (delta =? 0) then
    let* v := (if 0 <? delta then reAllocC v (nv + delta) else Ok v) in
    let* v := moveIn strict v stop nv (stop + delta) in
    (if delta <? 0 then reAllocC v (nv + delta) else Ok v) else Ok v) in
  let* v := restoreBlock v start (Some <$> pack) in
  let* v := initialised v in
  let* i := addFrom (s_index s) (k + 1) (zlen (s_index s)) delta in
  Ok (Sky (s_super s) i v).
Definition replaceSimplePack (strict : bool) (s : sky) (idx : Z) (pack : list Z) : res sky := validIndex s idx (replaceAt strict s idx pack).
Definition replacePack (strict : bool) (s : sky) (superIdx idx : Z) (pack : list Z) : res sky :=
  checkSuperIndex s (validSuperIndexAndIndex s superIdx idx (fun k => replaceAt strict s k pack)).

(** Lines 420-434. *)
Definition groupPacks (s : sky) (packs : da Z) : res sky :=
  checkAllocated packs (
  throw_if negb (da_nc packs =? 1) >>>
  throw_if da_nt packs =? 0 >>>
  let* part := mySelectByTupleIdSafe (vec (s_index s)) (da_vals packs) in
  let* i := initialised (da_vals part) in
  Ok (Sky [] i (s_values s))).

(** Lines 435-459. *)
Definition uniqueNotSortedByPack (s : sky) : res sky :=
  let nb := zlen (s_index s) - 1 in
  let packSet i := (let* b := rd (s_index s) (i + 1) in let* a := rd (s_index s) i in let* p := saveBlock (s_values s) a b in Ok (set_of p)) in
  let* ri := alloc Z (nb + 1) 1 in
  let* ri := wrc ri 0 0 in
  let* ri := forZ 0 nb (fun i ri => let* p := packSet i in let* x := rdc ri i in wrc ri (i + 1) (x + zlen p)) ri in
  let* n := rdc ri nb in
  let* rv := alloc Z n 1 in
  let* (rv, _) := forZ 0 nb (fun i '(rv, o) => let* p := packSet i in let* rv := copyc p 0 (zlen p) rv o in Ok (rv, o + zlen p)) (rv, 0) in
  let* ri := initialised ri in let* rv := initialised rv in
  Ok (Sky [] ri rv).

(** Lines 468-539.  [None] is a null pointer. *)
Definition AggregatePacks (sks : list (option sky)) : res sky :=
  let* (eff, nbOfPacks) := foldM (fun '(eff, nb) sk =>
    match sk with
    | None => Ok (eff, nb)
    | Some sk =>
      let cur := zlen (s_index sk) - 1 in
      let nb := (if bool_decide (eff = []) then cur else nb) in
      throw_if negb (nb =? cur) >>> Ok (eff ++ [sk], nb)
    end) sks ([], 9223372036854775807) in
  throw_if bool_decide (eff = []) >>>
  let* ix := alloc Z (nbOfPacks + 1) 1 in
  let* ix := wrc ix 0 0 in
  let* ix := forZ 0 nbOfPacks (fun p ix =>
    let* n := foldM (fun n sk => let* b := rd (s_index sk) (p + 1) in let* a := rd (s_index sk) p in Ok (n + (b - a))) eff 0 in
    let* x := rdc ix p in wrc ix (p + 1) (x + n)) ix in
  let* nbOut := rdc ix nbOfPacks in
  let* vs := alloc Z nbOut 1 in
  let* (vs, _) := forZ 0 nbOfPacks (fun p '(vs, o) =>
    foldM (fun '(vs, o) sk =>
      let* a := rd (s_index sk) p in let* b := rd (s_index sk) (p + 1) in
      let* vs := copyc (s_values sk) a b vs o in Ok (vs, o + (b - a))) eff (vs, o)) (vs, 0) in
  let* ix := initialised ix in let* vs := initialised vs in
  Ok (Sky [] ix vs).

(** Lines 367-418.  [substractEqual] and [accumulate] on arrays of one component. *)
Definition thresholdPerPack (s : sky) (threshold : Z) : res (sky * sky) :=
  let nb := zlen (s_index s) - 1 in
  let* lc := alloc Z nb 1 in
  let* lc := forZ 0 nb (fun i lc =>
    let* a := rd (s_index s) i in let* b := rd (s_index s) (i + 1) in
    let* p := saveBlock (s_values s) a b in
    wrc lc i (zlen (filter (fun elt => elt < threshold) p))) lc in
  let* lc := initialised lc in
  let* sp := deltaShiftIndex (vec (s_index s)) in
  let* sp := initialised sp in
  throw_if negb (zlen sp =? zlen lc) >>>
  let rc := zip_with Z.sub sp lc in
  let leftNb := foldl Z.add 0 lc in let rightNb := foldl Z.add 0 rc in
  let* li := computeOffsetsFull (vec lc) in let* ri := computeOffsetsFull (vec rc) in
  let* lv := alloc Z leftNb 1 in let* rv := alloc Z rightNb 1 in
  let* (lv, _, rv, _) := forZ 0 nb (fun i '(lv, lo, rv, ro) =>
    let* a := rd (s_index s) i in let* b := rd (s_index s) (i + 1) in
    let* p := saveBlock (s_values s) a b in
    foldM (fun '(lv, lo, rv, ro) elt =>
      if elt <? threshold then let* lv := wrc lv lo elt in Ok (lv, lo + 1, rv, ro)
      else let* rv := wrc rv ro elt in Ok (lv, lo, rv, ro + 1)) p (lv, lo, rv, ro)) (lv, 0, rv, 0) in
  let* li := initialised li in let* ri := initialised ri in
  let* lv := initialised lv in let* rv := initialised rv in
  Ok (Sky [] li lv, Sky [] ri rv).

(** INTERP_KERNEL/Bases/NormalizedGeometricTypes 52. *)
Definition NORM_POLYHED : Z := 31.
(** [std::find(p+w, p+e, -1)]: a position. *)
Definition findMinus1 (c : list Z) (w e : Z) : res Z :=
  let* p := saveBlock c w e in Ok (w + match list_find (eq (-1)) p with Some (n, _) => Z.of_nat n | None => zlen p end).

(** Lines 74-140. *)
Definition BuildFromPolyhedronConn (c cI : list Z) : res sky :=
  let n := zlen cI in
  let* last := rd cI (n - 1) in
  throw_if negb (zlen c =? last) >>>
  let* _ := forZ 0 n (fun i prev =>
    let* j := rd cI i in
    throw_if j <? prev >>>
    if negb (i =? n - 1) then let* t := rd c j in throw_if negb (t =? NORM_POLYHED) >>> Ok j else Ok j) (-1) in
  let* (su, ix, vals, cnt, cnt2) := forZ 0 (n - 1) (fun i '(su, ix, vals, cnt, cnt2) =>
    let* a := rd cI i in let* e := rd cI (i + 1) in
    let w := a + 1 in
    let* w2 := findMinus1 c w e in
    let* (w, _, ix, vals, cnt, cnt2) := whileM (Datatypes.S (length c)) (fun '(_, w2, _, _, _, _) => Ok (negb (w2 =? e))) (fun '(w, w2, ix, vals, cnt, cnt2) =>
      let* vals := copyv c w w2 vals cnt in
      let cnt := cnt + (w2 - w) in
      let* w2' := findMinus1 c (w2 + 1) e in
      Ok (w2 + 1, w2', ix ++ [cnt], vals, cnt, cnt2 + 1)) (w, w2, ix, vals, cnt, cnt2) in
    let* vals := copyv c w e vals cnt in
    let cnt := cnt + (e - w) in
    let cnt2 := cnt2 + 1 in
    Ok (su ++ [cnt2], ix ++ [cnt], vals, cnt, cnt2)) ([0], [0], replicate (length c) 0, 0, 0) in
  let* v := saveBlock vals 0 cnt in
  Ok (Sky su ix v).

(** Lines 146-178. *)
Definition convertToPolyhedronConn (s : sky) : res (list (option Z) * list (option Z)) :=
  checkSuperIndex s (
  let ns := zlen (s_super s) in
  let* cI := alloc Z ns 1 in
  let* dsi := deltaShiftIndex (vec (s_index s)) in
  let* dsi := initialised dsi in
  let* c := alloc Z (foldl Z.add 0 dsi + zlen dsi) 1 in
  let* (c, cI, cnt) := forZ 0 (ns - 1) (fun i '(c, cI, cnt) =>
    let* cI := wrc cI i cnt in
    let* e := rd (s_super s) (i + 1) in
    let* c := wrc c cnt NORM_POLYHED in
    let* b := rd (s_super s) i in
    let* (c, cnt) := forZ b e (fun j '(c, cnt) =>
      let* p := rd (s_index s) j in let* q := rd (s_index s) (j + 1) in
      let* c := copyc (s_values s) p q c cnt in
      let cnt := cnt + (q - p) in
      if negb (j =? e - 1) then let* c := wrc c cnt (-1) in Ok (c, cnt + 1) else Ok (c, cnt)) (c, cnt + 1) in
    Ok (c, cI, cnt)) (c, cI, 0) in
  let* cI := wrc cI (ns - 1) cnt in
  Ok (c, cI)).

(** Degenerated cells: InterpKernelCellSimplify.cxx, and MEDCouplingUMesh::unPolyze, convertDegeneratedCells and convertDegeneratedCellsAndRemoveFlatOnes. *)
From Coq Require Import QArith.
From Verif Require Import Base DataArray CellTable CellModel UmModel.
Local Open Scope Z_scope.

(** [n] values of an array from place [a] on. *)
Definition rdn (l : list Z) (a n : Z) : res (list Z) := ub_if ((a <? 0) || (zlen l <? a + n)) >>> Ok (piece l a (a + n)).
(** [std::copy] of a list to the place [a] of a buffer. *)
Definition wrn (buf : list Z) (a : Z) (l : list Z) : res (list Z) :=
  ub_if ((a <? 0) || (zlen buf <? a + zlen l)) >>> Ok (take (Z.to_nat a) buf ++ l ++ drop (Z.to_nat (a + zlen l)) buf).

(** InterpKernelCellSimplify.cxx 108-137: tryToUnPoly2D *)
Definition tryToUnPoly2D (isQuad : bool) (conn : list Z) : Z * list Z :=
  (if negb isQuad then (if zlen conn =? 3 then NORM_TRI3 else if zlen conn =? 4 then NORM_QUAD4 else NORM_POLYGON)
   else (if zlen conn =? 6 then NORM_TRI6 else if zlen conn =? 8 then NORM_QUAD8 else NORM_QPOLYG), conn).

(** InterpKernelCellSimplify.cxx 158-188: getFullPolyh3DCell; the faces with the separators between them, and the types of the faces.
    A cell that keeps no face makes the code step back before its buffer.  The buffer of nbOfFaces*(lgth+1) values is large enough and its bound is not modelled. *)
Definition distinctNodes (l : list Z) : list Z := foldl (fun acc x => if bool_decide (x ∈ acc) then acc else acc ++ [x]) [] l.
Definition getFullPolyh3DCell (type : Z) (conn : list Z) : res (list Z * list Z) :=
  let* c := GetCellModel type in
  let* r := forZ 0 (getNumberOfSons2 c conn) (fun j '(work, faces) =>
    let* s := fillSon2 c j conn in
    ub_if (zlen s.2 =? 0) >>>
    let tmp2 := distinctNodes s.2 in
    if zlen tmp2 <? 3 then Ok (work, faces) else
    let* c2 := GetCellModel s.1 in
    let u := tryToUnPoly2D (cm_quad c2) tmp2 in
    Ok (work ++ u.2 ++ [-1], faces ++ [u.1])) ([], []) in
  ub_if (zlen r.1 =? 0) >>> Ok (take (Z.to_nat (zlen r.1 - 1)) r.1, r.2).

(** The edges of a face, the last one back to the first node. *)
Definition ringEdges (l : list Z) : list (Z * Z) := zip l (drop 1 l ++ take 1 l).
(** std::set_intersection and std::set_difference of the sets of two ranges.  Their order is not modelled: only the sizes, and the value of sets of one value, are used. *)
Definition setInter {A} `{EqDecision A} (a b : list A) : list A := list_intersection (remove_dups a) b.
Definition setDiff {A} `{EqDecision A} (a b : list A) : list A := list_difference (remove_dups a) b.
Fixpoint findPos {A} `{EqDecision A} (x : A) (l : list A) : option Z :=
  match l with [] => None | y :: r => if decide (x = y) then Some 0 else (fun k => k + 1) <$> findPos x r end.

(** InterpKernelCellSimplify.cxx 228-305: orientOppositeFace; the new value of retConn, or nothing when it fails. *)
Definition orientOppositeFace (baseFace retConn sideFace : list Z) : option (list Z) :=
  if negb (zlen (setInter baseFace sideFace) =? 2) then None else
  let baseEdges := ringEdges baseFace in
  let oppEdges := ringEdges retConn in
  let sideEdges0 := ringEdges sideFace in
  let tmp0 := setInter baseEdges sideEdges0 in
  let '(sideEdges, tmp) := if zlen tmp0 =? 0 then (let s := (fun p => (p.2, p.1)) <$> sideEdges0 in (s, setInter baseEdges s)) else (sideEdges0, tmp0) in
  match tmp with
  | [p] =>
    match List.find (fun e => negb (p.1 =? e.1) && negb (p.1 =? e.2) && negb (p.2 =? e.1) && negb (p.2 =? e.2)) sideEdges with
    | None => None
    | Some e =>
      match findPos p baseEdges, findPos (e.2, e.1) oppEdges with
      | Some pos, Some pos2 =>
        let n := zlen baseFace in
        let offset := if pos - pos2 <? 0 then pos - pos2 + n else pos - pos2 in
        Some (drop (Z.to_nat (n - offset)) retConn ++ take (Z.to_nat (n - offset)) retConn)
      | _, _ => None
      end
    end
  | _ => None
  end.

(** InterpKernelCellSimplify.cxx 320-350: tryToArrangeOppositeFace; [base] and [opp] are the places of the two faces; isWellOriented (307-313) always accepts. *)
Definition tryToArrangeOppositeFace (conn : list Z) (lgthBaseFace base opp nbOfFaces : Z) : res (option (list Z)) :=
  let* baseFace := rdn conn base lgthBaseFace in
  let* oppFace := rdn conn opp lgthBaseFace in
  let* r := forZ 0 nbOfFaces (fun _ '(cur, side, ret) =>
    match ret with
    | None => Ok (cur, side, ret)
    | Some l =>
      let* sr := if negb (cur =? base) && negb (cur =? opp)
        then (if side =? 0 then (let* sf := rdn conn cur 4 in Ok (side + 1, orientOppositeFace baseFace l sf)) else Ok (side + 1, ret))
        else Ok (side, ret) in
      let* e := findSep conn cur in
      Ok (e + 1, sr.1, sr.2)
    end) (0, 0, Some (take 1 oppFace ++ rev (drop 1 oppFace))) in
  Ok r.2.

(** The start of face number [k]. *)
Definition faceAt (conn : list Z) (k : Z) : res Z := faceStart conn k.

(** InterpKernelCellSimplify.cxx 356-402: tryToUnPolyHex8 *)
Definition tryToUnPolyHex8 (conn types : list Z) : res (Z * list Z) :=
  if forallb (fun t => t =? NORM_QUAD4) types then
    let* conn1 := rdn conn 0 4 in
    let* oppositeFace := forZ 1 6 (fun i o =>
      if o <? 0 then (let* conn2 := rdn conn (5 * i) 4 in Ok (if zlen (setInter conn1 conn2) =? 0 then i else o)) else Ok o) (-1) in
    if 1 <=? oppositeFace then
      let* a := tryToArrangeOppositeFace conn 4 0 (5 * oppositeFace) 6 in
      match a with Some tmp2 => Ok (NORM_HEXA8, conn1 ++ tmp2) | None => Ok (NORM_POLYHED, conn) end
    else Ok (NORM_POLYHED, conn)
  else Ok (NORM_POLYHED, conn).

(** std::count *)
Definition countOf (x : Z) (l : list Z) : Z := zlen (filter (fun y => y = x) l).
(** Places of the first two occurrences of a value. *)
Definition firstPos (x : Z) (l : list Z) : Z := default (zlen l) (findPos x l).
Definition secondPos (x : Z) (l : list Z) : Z := firstPos x l + 1 + firstPos x (drop (Z.to_nat (firstPos x l + 1)) l).

(** InterpKernelCellSimplify.cxx 404-451: tryToUnPolyHexp12; the hexagons are found from the places of the polygons among quadrangles *)
Definition tryToUnPolyHexp12 (conn types : list Z) : res (Z * list Z) :=
  if (countOf NORM_QUAD4 types =? 6) && (countOf NORM_POLYGON types =? 2) then
    let h0 := firstPos NORM_POLYGON types in
    let h1 := secondPos NORM_POLYGON types in
    let p0 := 5 * h0 in
    let* e0 := findSep conn p0 in
    if e0 - p0 =? 6 then
      let p1 := 5 * h0 + 7 + (h1 - h0 - 1) * 5 in
      let* e1 := findSep conn p1 in
      if e1 - p1 =? 6 then
        let* conn1 := rdn conn p0 6 in
        let* conn2 := rdn conn p1 6 in
        if zlen (setInter conn1 conn2) =? 0 then
          let* a := tryToArrangeOppositeFace conn 6 p0 p1 8 in
          match a with Some tmp2 => Ok (NORM_HEXGP12, conn1 ++ tmp2) | None => Ok (NORM_POLYHED, conn) end
        else Ok (NORM_POLYHED, conn)
      else Ok (NORM_POLYHED, conn)
    else Ok (NORM_POLYHED, conn)
  else Ok (NORM_POLYHED, conn).

(** InterpKernelCellSimplify.cxx 457-511: tryToUnPolyPenta6 *)
Definition tryToUnPolyPenta6 (conn types : list Z) : res (Z * list Z) :=
  if (countOf NORM_TRI3 types =? 2) && (countOf NORM_QUAD4 types =? 3) then
    let* tri_0 := faceAt conn (firstPos NORM_TRI3 types) in
    let* tri_1 := faceAt conn (secondPos NORM_TRI3 types) in
    let* conn1 := rdn conn tri_0 3 in
    let* conn2 := rdn conn tri_1 3 in
    if zlen (setInter conn1 conn2) =? 0 then
      let* a := tryToArrangeOppositeFace conn 3 tri_0 tri_1 5 in
      match a with Some tmp2 => Ok (NORM_PENTA6, conn1 ++ tmp2) | None => Ok (NORM_POLYHED, conn) end
    else Ok (NORM_POLYHED, conn)
  else Ok (NORM_POLYHED, conn).

(** One turn of the loops 546-572 and 603-634: the only node of the triangle [conn2] that is not in the base is the apex. *)
Definition apexStep (base conn2 : list Z) (st : bool * Z) : bool * Z :=
  let d := setDiff conn2 base in
  match d with
  | [q] => if zlen (setInter conn2 base) =? 2 then (if 0 <=? st.2 then (st.2 =? q, st.2) else (true, q)) else (false, st.2)
  | _ => (false, st.2)
  end.
(** InterpKernelCellSimplify.cxx 517-583: tryToUnPolyPyra5 *)
Definition tryToUnPolyPyra5 (conn types : list Z) : res (Z * list Z) :=
  if (countOf NORM_TRI3 types =? 4) && (countOf NORM_QUAD4 types =? 1) then
    let quad4_pos := firstPos NORM_QUAD4 types in
    let* q := faceAt conn quad4_pos in
    let* quad4 := rdn conn q 4 in
    let* r := forZ 0 5 (fun i '(w, st) =>
      if negb (st : bool * Z).1 then Ok (w, st) else
      let* st' := if negb (i =? quad4_pos) then (let* conn2 := rdn conn w 3 in Ok (apexStep quad4 conn2 st)) else Ok st in
      let* e := findSep conn w in
      Ok (e + 1, st')) (0, (true, -1)) in
    if r.2.1 && (0 <=? r.2.2) then Ok (NORM_PYRA5, quad4 ++ [r.2.2]) else Ok (NORM_POLYHED, conn)
  else Ok (NORM_POLYHED, conn).

(** InterpKernelCellSimplify.cxx 589-641: tryToUnPolyTetra4 *)
Definition tryToUnPolyTetra4 (conn types : list Z) : res (Z * list Z) :=
  if forallb (fun t => t =? NORM_TRI3) types then
    let* tribase := rdn conn 0 3 in
    let* st := forZ 1 4 (fun i st => if negb (st : bool * Z).1 then Ok st else let* conn2 := rdn conn (4 * i) 3 in Ok (apexStep tribase conn2 st)) (true, -1) in
    if st.1 && (0 <=? st.2) then Ok (NORM_TETRA4, tribase ++ [st.2]) else Ok (NORM_POLYHED, conn)
  else Ok (NORM_POLYHED, conn).

(** InterpKernelCellSimplify.cxx 195-226: tryToUnPoly3D *)
Definition tryToUnPoly3D (conn types : list Z) : res (Z * list Z) :=
  let nbOfNodes := zlen (filter (fun x => x <> -1) (remove_dups conn)) in
  let magicNumber := 100 * nbOfNodes + zlen types in
  if magicNumber =? 806 then tryToUnPolyHex8 conn types else
  if magicNumber =? 1208 then tryToUnPolyHexp12 conn types else
  if magicNumber =? 605 then tryToUnPolyPenta6 conn types else
  if magicNumber =? 505 then tryToUnPolyPyra5 conn types else
  if magicNumber =? 404 then tryToUnPolyTetra4 conn types else
  Ok (NORM_POLYHED, conn).

(** InterpKernelCellSimplify.cxx 66-73: the nodes at the start of the edges that are not null *)
Definition zipLinear (conn : list Z) : res (list Z) :=
  let lgth := zlen conn in
  forZ 0 lgth (fun i tmp => let* a := rd conn i in let* b := rd conn ((i + 1) mod lgth) in Ok (if negb (a =? b) then tmp ++ [a] else tmp)) [].
(** 74-91: the same for quadratic cells, with the middle nodes after the others *)
Definition zipQuad (conn : list Z) : res (list Z) :=
  let lgth := zlen conn in
  let quadOff := lgth / 2 in
  let* r := forZ 0 quadOff (fun i '(tmp, tmpQuad) =>
    let* a := rd conn i in let* b := rd conn ((i + 1) mod quadOff) in
    let* m := rd conn (i + quadOff) in
    if negb (a =? b) || negb (a =? m) then (let* m' := rd conn ((i + quadOff) mod lgth) in Ok (tmp ++ [a], tmpQuad ++ [m'])) else Ok (tmp, tmpQuad)) ([], []) in
  Ok (r.1 ++ r.2).

(** InterpKernelCellSimplify.cxx 43-102: simplifyDegeneratedCell; the type and the nodes of the cell it gives.
    The code copies the cell before it writes, so that the overlap of its two arrays changes nothing. *)
Definition simplifyDegeneratedCell (type : Z) (conn : list Z) : res (Z * list Z) :=
  let* c := GetCellModel type in
  let size := zlen (filter (fun x => x <> -1) (remove_dups conn)) in
  if ((cm_dim c =? 3) && cm_quad c) || (size =? zlen conn) then Ok (type, conn) else
  if cm_dim c =? 2 then
    let* tmp := if negb (cm_quad c) then zipLinear conn else zipQuad conn in
    Ok (tryToUnPoly2D (cm_quad c) tmp)
  else if cm_dim c =? 3 then
    let* z := getFullPolyh3DCell type conn in tryToUnPoly3D z.1 z.2
  else Throw.

(** InterpKernelCellSimplify.cxx 649-661: isFlatCell *)
Definition isFlatCell (conn : list Z) (pos lgth type : Z) : res bool :=
  let* c := GetCellModel type in
  if lgth <=? 2 then Ok true else
  if cm_quad c && (lgth =? 4) then
    let* a := rd conn (pos + 1 + lgth / 2) in let* b := rd conn (pos + 1 + lgth / 2 + 1) in Ok (a =? b)
  else Ok false.

(** MEDCouplingUMesh.cxx 6233-6265: convertDegeneratedCells; the connectivity is rewritten in its own buffer.
    computeTypes is [ComputeAllTypesInternal]. *)
Definition convertDegeneratedCells (m : umesh) : res umesh :=
  checkFullyDefined m (fun _ conn index =>
    throw_if (um_dim m <=? 1) >>>
    let* nbOfCells := getNumberOfCells m in
    if nbOfCells <? 1 then Ok m else
    let* r := forZ 0 nbOfCells (fun i '(conn, index, posOfCurCell, newPos) =>
      let* e := rd index (i + 1) in
      let* type := rd conn posOfCurCell in
      let* c := rdn conn (posOfCurCell + 1) (e - posOfCurCell - 1) in
      let* s := simplifyDegeneratedCell type c in
      let* conn := wrn conn (newPos + 1) s.2 in
      let* conn := wr conn newPos s.1 in
      let newPos := newPos + zlen s.2 + 1 in
      let* index := wr index (i + 1) newPos in
      Ok (conn, index, e, newPos)) (conn, index, 0, 0) in
    let '(conn, index, _, newPos) := r in
    let conn := take (Z.to_nat newPos) conn in
    setConnectivity m (Some conn) (Some index) true).

(** MEDCouplingUMesh.cxx 6276-6327: convertDegeneratedCellsAndRemoveFlatOnes; the mesh and the ids of the cells it drops *)
Definition convertDegeneratedCellsAndRemoveFlatOnes (m : umesh) : res (umesh * list Z) :=
  checkFullyDefined m (fun _ conn index =>
    throw_if (um_dim m <=? 1) >>>
    let* nbOfCells := getNumberOfCells m in
    if nbOfCells <? 1 then Ok (m, []) else
    let* r := forZ 0 nbOfCells (fun i '(conn, index, posOfCurCell, newPos, ret) =>
      let* e := rd index (i + 1) in
      let* type := rd conn posOfCurCell in
      let* c := rdn conn (posOfCurCell + 1) (e - posOfCurCell - 1) in
      let* s := simplifyDegeneratedCell type c in
      let* conn := wrn conn (newPos + 1) s.2 in
      let* delCell := isFlatCell conn newPos (zlen s.2) s.1 in
      let* r := if (delCell : bool) then Ok (conn, newPos, ret ++ [i]) else (let* conn := wr conn newPos s.1 in Ok (conn, newPos + zlen s.2 + 1, ret)) in
      let '(conn, newPos, ret) := r in
      let* e := rd index (i + 1) in
      let* index := wr index (i + 1 - zlen ret) newPos in
      Ok (conn, index, e, newPos, ret)) (conn, index, 0, 0, []) in
    let '(conn, index, _, newPos, ret) := r in
    let conn := take (Z.to_nat newPos) conn in
    let index := take (Z.to_nat (nbOfCells - zlen ret + 1)) index in
    let* m' := setConnectivity m (Some conn) (Some index) true in
    Ok (m', ret)).

(** MEDCouplingUMesh.cxx 1583-1665: unPolyze; the mesh and true when the type of a cell has changed.  A cell of dimension 1 (POLYL) gets an unset type. *)
Definition unPolyze (m : umesh) : res (umesh * bool) :=
  checkFullyDefined m (fun _ conn index =>
    throw_if (um_dim m <? 0) >>>
    if um_dim m <=? 1 then Ok (m, false) else
    let* nbOfCells := getNumberOfCells m in
    if nbOfCells <? 1 then Ok (m, false) else
    let* r := forZ 0 nbOfCells (fun i '(conn, index, posOfCurCell, newPos, ret) =>
      let* e := rd index (i + 1) in
      let* type := rd conn posOfCurCell in
      let* c := GetCellModel type in
      let* l := rdn conn (posOfCurCell + 1) (e - posOfCurCell - 1) in
      if cm_dyn c then
        let* s := if cm_dim c =? 2 then Ok (tryToUnPoly2D (cm_quad c) l)
                  else if cm_dim c =? 3 then (let* z := getFullPolyh3DCell type l in tryToUnPoly3D z.1 z.2)
                  else Ok (NORM_ERROR, []) in
        let* conn := wrn conn (newPos + 1) s.2 in
        let* conn := wr conn newPos s.1 in
        let newPos := newPos + zlen s.2 + 1 in
        let* index := wr index (i + 1) newPos in
        Ok (conn, index, e, newPos, ret || negb (s.1 =? type))
      else
        let* conn := wrn conn newPos (type :: l) in
        let newPos := newPos + (e - posOfCurCell) in
        let* index := wr index (i + 1) newPos in
        Ok (conn, index, e, newPos, ret)) (conn, index, 0, 0, false) in
    let '(conn, index, _, newPos, ret) := r in
    let conn := take (Z.to_nat newPos) conn in
    let* m' := setConnectivity m (Some conn) (Some index) ret in
    Ok (m', ret)).

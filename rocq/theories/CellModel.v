(** Model of CellModel.cxx (queries on a model of cell) and of OrientationInverter.cxx.
    A nodal connectivity is the list of its values; a method that writes through a pointer returns the list that it leaves there. Polyhedra separate their faces with -1. *)
From Verif Require Import Base CellTable.
Local Open Scope Z_scope.

(** [for (i...) dst[i] = conn[idx[i]]] *)
Definition reads (conn idx : list Z) : res (list Z) := foldM (fun acc i => let* v := rd conn i in Ok (acc ++ [v])) idx [].

(** [std::find(conn + w, conn + lgth, -1)], from a valid place on. *)
Fixpoint find1 (l : list Z) : Z := match l with [] => 0 | x :: r => if x =? -1 then 0 else 1 + find1 r end.
Definition findSep (conn : list Z) (w : Z) : res Z := ub_if ((w <? 0) || (zlen conn <? w)) >>> Ok (w + find1 (drop (Z.to_nat w) conn)).

(** CellModel.cxx 231-248: isCompatibleWith *)
Definition isCompatibleWith (c : cm) (type : Z) : res bool :=
  if cm_type c =? type then Ok true else
  let* other := GetCellModel type in
  if negb (cm_dim c =? cm_dim other) then Ok false else
  if xorb (cm_quad c) (cm_quad other) then Ok false else Ok (cm_dyn c || cm_dyn other).

(** CellModel.cxx 1515-1534: getNumberOfSons2. [/] of a length that is not negative. *)
Definition getNumberOfSons2 (c : cm) (conn : list Z) : Z :=
  if negb (cm_dyn c) then cm_nbsons c else
  if cm_dim c =? 2 then (if cm_type c =? NORM_POLYGON then zlen conn else zlen conn / 2)
  else if cm_dim c =? 1 then zlen conn
  else zlen (filter (fun x => x = -1) conn) + 1.

(** CellModel.cxx 1633-1653: getSonType2. The sons that the table does not list are not set. *)
Definition getSonType2 (c : cm) (sonId : Z) : res Z :=
  if negb (cm_dyn c) then (let* s := rd (cm_sons c) sonId in Ok s.1) else
  if cm_dim c =? 2 then Ok (if cm_type c =? NORM_POLYGON then NORM_SEG2 else NORM_SEG3)
  else if cm_dim c =? 1 then Ok NORM_ERROR
  else Ok NORM_POLYGON.

(** CellModel.cxx 1655-1665: fillSonCellNodalConnectivity *)
Definition fillSon (c : cm) (sonId : Z) (conn : list Z) : res (list Z) := let* s := rd (cm_sons c) sonId in reads conn s.2.

(** CellModel.cxx 1698-1706 and 1899-1907: the place of face [sonId] of a polyhedron, after [sonId] separators *)
Definition faceStart (conn : list Z) (sonId : Z) : res Z := forZ 0 sonId (fun _ w => let* f := findSep conn w in Ok (f + 1)) 0.

(** CellModel.cxx 1667-1712: fillSonCellNodalConnectivity2; the type of the son and its nodes *)
Definition fillSon2 (c : cm) (sonId : Z) (conn : list Z) : res (Z * list Z) :=
  let lgth := zlen conn in
  let* t := getSonType2 c sonId in
  if negb (cm_dyn c) then (let* l := fillSon c sonId conn in Ok (t, l)) else
  if cm_dim c =? 2 then
    if cm_type c =? NORM_POLYGON then
      let* a := rd conn sonId in
      ub_if (lgth =? 0) >>>
      let* b := rd conn ((sonId + 1) mod lgth) in
      Ok (t, [a; b])
    else
      let* a := rd conn sonId in
      ub_if (lgth / 2 =? 0) >>>
      let* b := rd conn ((sonId + 1) mod (lgth / 2)) in
      let* m := rd conn (sonId + lgth / 2) in
      Ok (t, [a; b; m])
  else if cm_dim c =? 3 then
    let* w := faceStart conn sonId in
    let* w2 := findSep conn w in
    Ok (t, take (Z.to_nat (w2 - w)) (drop (Z.to_nat w) conn))
  else Throw.

(** CellModel.cxx 1714-1727: fillSonCellNodalConnectivity4 *)
Definition fillSon4 (c : cm) (sonId : Z) (conn : list Z) : res (Z * list Z) :=
  if cm_type c =? NORM_HEXA8 then (let* s := rd [0; 2; 3; 4; 5; 1] sonId in fillSon2 c s conn) else fillSon2 c sonId conn.

(** CellModel.cxx 1878-1912: getNumberOfNodesConstituentTheSon2 *)
Definition getNumberOfNodesConstituentTheSon2 (c : cm) (sonId : Z) (conn : list Z) : res Z :=
  if negb (cm_dyn c) then (let* s := rd (cm_sons c) sonId in Ok (zlen s.2)) else
  if cm_dim c =? 2 then Ok (if cm_type c =? NORM_POLYGON then 2 else 3)
  else if cm_dim c =? 3 then (let* w := faceStart conn sonId in let* w2 := findSep conn w in Ok (w2 - w))
  else Throw.

(** CellModel.cxx 70-90, 99-125: a set of pairs without order that keeps the first of the equal ones, in the order of insertion *)
Definition samePair (p q : Z * Z) : bool := (Z.min p.1 p.2 =? Z.min q.1 q.2) && (Z.max p.1 p.2 =? Z.max q.1 q.2).
Definition insertPair (s : list (Z * Z)) (p : Z * Z) : list (Z * Z) := if existsb (samePair p) s then s else s ++ [p].
(** CellModel.cxx 127-143: EgdesOfPolyhedron. *)
Definition edgesOfPolyhedron (conn : list Z) : res (list (Z * Z)) :=
  let lgth := zlen conn in
  let* s := whileM (S (length conn)) (fun st => Ok (negb (st.1 =? lgth))) (fun '(work, ret) =>
    let* e := findSep conn work in
    let n := e - work in
    let* ret := forZ 0 n (fun i ret => let* a := rd conn (work + i) in let* b := rd conn (work + (i + 1) mod n) in Ok (insertPair ret (a, b))) ret in
    Ok ((if e =? lgth then e else e + 1), ret)) (0, []) in
  Ok s.2.
(** CellModel.cxx 1555-1563: getNumberOfEdgesIn3D; the number left unset is the greatest unsigned *)
Definition getNumberOfEdgesIn3D (c : cm) (conn : list Z) : res Z :=
  if negb (cm_dyn c) then Ok (match cm_little c with Some l => zlen l | None => 4294967295 end)
  else let* e := edgesOfPolyhedron conn in Ok (zlen e).
(** CellModel.cxx 1536-1553: getNumberOfEdges *)
Definition getNumberOfEdges (c : cm) : res Z :=
  if cm_dyn c then Throw else
  if cm_dim c =? 2 then Ok (cm_nbsons c) else
  if cm_dim c =? 3 then Ok (match cm_little c with Some l => zlen l | None => 4294967295 end) else Throw.
(** CellModel.cxx 1728-1747: computeAllEdgesForPolyhedron *)
Definition computeAllEdgesForPolyhedron (c : cm) (conn : list Z) : res (list Z) :=
  if cm_type c =? NORM_POLYHED then (let* e := edgesOfPolyhedron conn in Ok (concat ((fun p => [p.1; p.2]) <$> e))) else Throw.

(** CellModel.cxx 1749-1777: fillSonEdgesNodalConnectivity3D; the unset entries of the table cannot be read *)
Definition fillSonEdges3D (c : cm) (sonId : Z) (conn : list Z) : res (Z * list Z) :=
  if cm_dyn c then Throw else
  match cm_little c with
  | None => UB
  | Some ls =>
    let* s := rd ls sonId in
    if negb (cm_quad c) then
      let* i := rd s 0 in let* j := rd s 1 in
      let* a := rd conn i in let* b := rd conn j in Ok (NORM_SEG2, [a; b])
    else
      let* i := rd s 0 in let* j := rd s 1 in let* k := rd s 2 in
      let* a := rd conn i in let* b := rd conn j in let* m := rd conn k in Ok (NORM_SEG3, [a; b; m])
  end.
(** CellModel.cxx 1568-1587: getNumberOfMicroEdges, in unsigned arithmetic *)
Definition getNumberOfMicroEdges (c : cm) : res Z :=
  let mul := if cm_quad c then 2 else 1 in
  if cm_dyn c then Throw else
  if cm_dim c =? 2 then Ok (mul * cm_nbsons c) else
  if cm_dim c =? 3 then Ok (mul * (match cm_little c with Some l => zlen l | None => 4294967295 end) mod 4294967296) else Throw.
(** CellModel.cxx 1779-1828: fillMicroEdgeNodalConnectivity. A length of 0 is given for the polygons (1817): the remainder by it is undefined. *)
Definition fillMicroEdge (c : cm) (sonId : Z) (conn : list Z) : res (Z * list Z) :=
  if cm_quad c then
    let edgeId := sonId / 2 in
    let sub := sonId mod 2 in
    let* con := (if cm_dim c =? 2 then (let* s := rd (cm_sons c) edgeId in Ok s.2)
                 else if cm_dim c =? 3 then (match cm_little c with Some ls => rd ls edgeId | None => UB end) else Throw) in
    let* c0 := rd con 0 in let* c2 := rd con 2 in let* c1 := rd con 1 in
    let tmp := [c0; c2; c1] in
    let* i := rd tmp sub in let* j := rd tmp (sub + 1) in
    let* a := rd conn i in let* b := rd conn j in Ok (NORM_SEG2, [a; b])
  else
    if cm_dim c =? 2 then (if cm_dyn c then UB else fillSon2 c sonId conn)
    else if cm_dim c =? 3 then fillSonEdges3D c sonId conn
    else Throw.

(** CellModel.cxx 1589-1618: getCorrespondingPolyType *)
Definition getCorrespondingPolyType (c : cm) : res Z :=
  if cm_dim c =? 0 then Ok NORM_POINT1 else
  if cm_dim c =? 1 then (if negb (cm_quad c) then Ok NORM_POLYL else Throw) else
  if cm_dim c =? 2 then Ok (if negb (cm_quad c) then NORM_POLYGON else NORM_QPOLYG) else
  if cm_dim c =? 3 then (if negb (cm_quad c) then Ok NORM_POLYHED else Throw) else Throw.

(** CellModel.cxx 1620-1631: buildExtruded; [_extrude_con] is unset where the table does not list it *)
Definition buildExtruded (c : cm) (conn : list Z) (offset : Z) : res (list Z) :=
  let* e := GetCellModel (cm_ext c) in
  forZ 0 (cm_nbpts e) (fun i ret =>
    let* val := rd (cm_extrude c) i in
    let* x := rd conn (val mod 30) in
    Ok (ret ++ [x + (val / 30) * offset])) [].

(** [std::copy(src.begin(), src.end(), tmp.rbegin())] in a vector of [n] zeros *)
Definition copyRev (src : list Z) (n : Z) : res (list Z) := ub_if (n <? zlen src) >>> Ok (replicate (Z.to_nat (n - zlen src)) 0 ++ rev src).
(** The values of [a, b) *)
Definition piece (l : list Z) (a b : Z) : list Z := take (Z.to_nat (b - a)) (drop (Z.to_nat a) l).
(** CellModel.cxx 1829-1849: changeOrientationOf2D. The quadratic branch with a single node copies from after to before. *)
Definition changeOrientationOf2D (c : cm) (conn : list Z) : res (list Z) :=
  let sz := zlen conn in
  if sz <? 1 then Ok conn else
  if negb (cm_quad c) then
    let* tmp := copyRev (piece conn 1 sz) (sz - 1) in Ok (take 1 conn ++ tmp)
  else
    let sz2 := sz / 2 in
    ub_if (sz2 <? 1) >>>
    let* tmp0 := copyRev (piece conn 1 sz2) (sz2 - 1) in
    let* tmp1 := copyRev (piece conn sz2 sz) sz2 in
    Ok (take 1 conn ++ tmp0 ++ tmp1 ++ piece conn (sz2 + sz2) sz).
(** CellModel.cxx 1851-1876: changeOrientationOf1D; a polyline without node asks for a vector of the greatest size *)
Definition changeOrientationOf1D (c : cm) (conn : list Z) : res (list Z) :=
  if negb (cm_dyn c) then
    match conn with
    | [a; b] => Ok [b; a]
    | [a; b; m] => Ok [b; a; m]
    | [a; b; m; n] => Ok [b; a; n; m]
    | _ => Throw
    end
  else
    ub_if (zlen conn <? 1) >>>
    let* tmp := copyRev (piece conn 1 (zlen conn)) (zlen conn - 1) in Ok (take 1 conn ++ tmp).

(** OrientationInverter.cxx: [std::reverse(beginPt + a, beginPt + b)] and [std::swap(beginPt[a], beginPt[b])] *)
Definition reverseIn (a b : Z) (l : list Z) : res (list Z) :=
  ub_if ((a <? 0) || (b <? a) || (zlen l <? b)) >>> Ok (take (Z.to_nat a) l ++ rev (piece l a b) ++ drop (Z.to_nat b) l).
Definition swapIn (a b : Z) (l : list Z) : res (list Z) := let* x := rd l a in let* y := rd l b in let* l := wr l a y in wr l b x.
(** OrientationInverter.cxx 82-93: OrientationInverterChecker::check, then operateAndShutUp *)
Definition checked (n : Z) (conn : list Z) (op : list Z -> res (list Z)) : res (list Z) := throw_if negb (zlen conn =? n) >>> op conn.
(** OrientationInverter.cxx 29-187: BuildInstanceFrom, then operate *)
Definition invertOrientation (gt : Z) (conn : list Z) : res (list Z) :=
  let sz := zlen conn in
  let linear2D n := checked n conn (reverseIn 1 n) in
  let quad2D n := checked n conn (fun l => let* l := reverseIn 1 (n / 2) l in reverseIn (n / 2) n l) in
  let extr n := checked n conn (fun l => let* l := reverseIn 1 (n / 2) l in reverseIn (n / 2 + 1) n l) in
  let extrq n := checked n conn (fun l => let b := n / 5 in
    let* l := reverseIn 1 b l in let* l := reverseIn (b + 1) (2 * b) l in let* l := reverseIn (2 * b) (3 * b) l in
    let* l := reverseIn (3 * b) (4 * b) l in reverseIn (4 * b + 1) (5 * b) l) in
  if gt =? NORM_SEG2 then checked 2 conn (swapIn 0 1)
  else if gt =? NORM_SEG3 then checked 3 conn (swapIn 0 2)
  else if gt =? NORM_TRI3 then linear2D 3
  else if gt =? NORM_QUAD4 then linear2D 4
  else if gt =? NORM_POLYGON then reverseIn 1 sz conn
  else if gt =? NORM_TRI6 then quad2D 6
  else if gt =? NORM_QUAD8 then quad2D 8
  else if gt =? NORM_QPOLYG then (let* l := reverseIn 1 (sz / 2) conn in reverseIn (sz / 2) sz l)
  else if gt =? NORM_TETRA4 then checked 4 conn (swapIn 1 2)
  else if gt =? NORM_PYRA5 then checked 5 conn (reverseIn 1 4)
  else if gt =? NORM_PENTA6 then extr 6
  else if gt =? NORM_HEXA8 then extr 8
  else if gt =? NORM_TETRA10 then checked 10 conn (fun l => let* l := swapIn 1 2 l in let* l := swapIn 4 6 l in swapIn 8 9 l)
  else if gt =? NORM_PYRA13 then checked 13 conn (fun l => let* l := reverseIn 1 4 l in let* l := reverseIn 5 9 l in swapIn 10 12 l)
  else if gt =? NORM_PENTA15 then extrq 15
  else if gt =? NORM_HEXA20 then extrq 20
  else Throw.

(** [std::search(l, l + n, pat, pat + k)]: the place of the first occurrence, [zlen l] if none *)
Definition isPrefix (pat l : list Z) : bool := bool_decide (take (length pat) l = pat).
Fixpoint search (l pat : list Z) : Z := if isPrefix pat l then 0 else match l with [] => 0 | _ :: r => 1 + search r pat end.
(** [std::copy(src, tmp.begin() + at)] in a vector [tmp] *)
Definition copyAt (tmp src : list Z) (at_ : Z) : res (list Z) := ub_if (zlen tmp <? at_ + zlen src) >>> Ok (take (Z.to_nat at_) tmp ++ src ++ drop (Z.to_nat (at_ + zlen src)) tmp).
(** CellModel.cxx 1914-1978: getOrientationStatus, of two connectivities of the same length *)
Definition getOrientationStatus (c : cm) (conn1 conn2 : list Z) : res bool :=
  let lgth := zlen conn1 in
  throw_if negb ((cm_dim c =? 1) || (cm_dim c =? 2)) >>>
  if negb (cm_quad c) then
    let tmp := conn1 ++ conn1 in
    let it := search tmp conn2 in
    if it =? 0 then Ok true else
    if negb (it =? zlen tmp) then Ok (negb (cm_dim c =? 1)) else
    if negb (search (rev tmp) conn2 =? zlen tmp) then Ok false else Throw
  else if negb (cm_dim c =? 1) then
    let h := lgth / 2 in
    let* tmp := copyAt (replicate (Z.to_nat lgth) 0) (piece conn1 0 h) 0 in
    let* tmp := copyAt tmp (piece conn1 0 h) h in
    let d := search tmp (piece conn2 0 h) in
    if d =? lgth then Ok false else
    let* tmp := copyAt tmp (piece conn1 h lgth) 0 in
    let* tmp := copyAt tmp (piece conn1 h lgth) (lgth - h) in
    let d2 := search tmp conn2 in
    if d2 =? lgth then Ok false else Ok (d =? d2)
  else
    let p := (lgth + 1) / 2 in
    let* tmp := copyAt (replicate (Z.to_nat (2 * p)) 0) (piece conn1 0 p) 0 in
    let* tmp := copyAt tmp (piece conn1 0 p) p in
    let d := search tmp (piece conn2 0 p) in
    if d =? 2 * p then Ok false else
    let tmp := take (Z.to_nat (2 * p - 2)) tmp in
    let* tmp := copyAt tmp (piece conn1 p lgth) 0 in
    let* tmp := copyAt tmp (piece conn1 p lgth) (lgth - p) in
    let d2 := search tmp (piece conn2 p lgth) in
    if d2 =? zlen tmp then Ok false else Ok (d =? d2).

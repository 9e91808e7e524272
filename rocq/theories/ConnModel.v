(** MEDCouplingStructuredMesh.cxx: nodal connectivity of the cells of a structured mesh and its transpose.
    All line numbers are in that file.  [ngs] is the number of nodes along each axis. *)
From Verif Require Import Base DataArray SkyModel StrModel.

(** Lines 1469-1492: the axes with at least two nodes. *)
Definition ZipNodeStructure (st : list Z) : res (list Z) :=
  throw_if (3 <? zlen st) || (zlen st <? 1) >>>
  foldM (fun z elt => throw_if elt <? 1 >>> Ok (if 2 <=? elt then z ++ [elt] else z)) st [].

(** cp[w*pos+0] = x0; cp[w*pos+1] = x1; ... for the values [xs] (w values per cell). *)
Definition setCell (w pos : Z) (xs : list Z) (cp : list (option Z)) : res (list (option Z)) :=
  let* (cp, _) := foldM (fun '(cp, k) x => let* cp := wrc cp (w * pos + k) x in Ok (cp, k + 1)) xs (cp, 0) in Ok cp.

(** Lines 1211-1224, 1226-1243, 1245-1268.  The result is an array of one component. *)
Definition Build1GT1D (n0 : Z) : res (list Z) :=
  let nbOfCells := n0 - 1 in
  let* cp := alloc Z (2 * nbOfCells) 1 in
  let* cp := forZ 0 nbOfCells (fun i cp => setCell 2 i [i; i + 1] cp) cp in
  initialised cp.
Definition Build1GT2D (n0 m0 : Z) : res (list Z) :=
  let n1 := n0 - 1 in let n2 := m0 - 1 in
  let* cp := alloc Z (4 * n1 * n2) 1 in
  let* (cp, _) := forZ 0 n2 (fun j s => forZ 0 n1 (fun i '(cp, pos) =>
    let* cp := setCell 4 pos [i + 1 + j * (n1 + 1); i + j * (n1 + 1); i + (j + 1) * (n1 + 1); i + 1 + (j + 1) * (n1 + 1)] cp in
    Ok (cp, pos + 1)) s) (cp, 0) in
  initialised cp.
Definition Build1GT3D (n0 m0 p0 : Z) : res (list Z) :=
  let n1 := n0 - 1 in let n2 := m0 - 1 in let n3 := p0 - 1 in
  let* cp := alloc Z (8 * n1 * n2 * n3) 1 in
  let* (cp, _) := forZ 0 n3 (fun k s => forZ 0 n2 (fun j s => forZ 0 n1 (fun i '(cp, pos) =>
    let tmp := (n1 + 1) * (n2 + 1) in
    let* cp := setCell 8 pos [i + 1 + j * (n1 + 1) + k * tmp; i + j * (n1 + 1) + k * tmp; i + (j + 1) * (n1 + 1) + k * tmp; i + 1 + (j + 1) * (n1 + 1) + k * tmp;
      i + 1 + j * (n1 + 1) + (k + 1) * tmp; i + j * (n1 + 1) + (k + 1) * tmp; i + (j + 1) * (n1 + 1) + (k + 1) * tmp; i + 1 + (j + 1) * (n1 + 1) + (k + 1) * tmp] cp in
    Ok (cp, pos + 1)) s) s) (cp, 0) in
  initialised cp.
(** Lines 813-838. *)
Definition Build1GTNodalConnectivity (ngs : list Z) : res (list Z) :=
  let* z := ZipNodeStructure ngs in
  match z with
  | [] => Ok [0]
  | [a] => Build1GT1D a
  | [a; b] => Build1GT2D a b
  | [a; b; c] => Build1GT3D a b c
  | _ => Throw
  end.

(** Lines 157-192 with getSplitCellValues 243-249 and getSplitNodeValues 251-257.  The arrays have three cells in the code, those beyond the
    number of axes are not initialised; here the arrays have the length of the initialised part (reading further is undefined).
    The ids are appended to [conn]. *)
Definition getNodeIdsOfCell (ngs : list Z) (cellId : Z) (conn : list Z) : res (list Z) :=
  let* meshDim := getMeshDimension ngs in
  let* tmpCell := GetSplitVectFromStruct (getCellGridStructure ngs) in
  let* tmpNode := GetSplitVectFromStruct ngs in
  let* tmp2 := GetPosFromId cellId meshDim tmpCell (replicate (Z.to_nat meshDim) 0) in
  if meshDim =? 1 then let* p0 := rd tmp2 0 in Ok (conn ++ [p0; p0 + 1])
  else if meshDim =? 2 then
    let* p0 := rd tmp2 0 in let* p1 := rd tmp2 1 in
    let* N1 := rd tmpNode 1 in
    Ok (conn ++ [p1 * N1 + p0; p1 * N1 + p0 + 1; (p1 + 1) * N1 + p0 + 1; (p1 + 1) * N1 + p0])
  else if meshDim =? 3 then
    let* p0 := rd tmp2 0 in let* p1 := rd tmp2 1 in let* p2 := rd tmp2 2 in
    let* N1 := rd tmpNode 1 in let* N2 := rd tmpNode 2 in
    Ok (conn ++ [p1 * N1 + p0 + p2 * N2; p1 * N1 + p0 + 1 + p2 * N2; (p1 + 1) * N1 + p0 + 1 + p2 * N2; (p1 + 1) * N1 + p0 + p2 * N2;
      p1 * N1 + p0 + (p2 + 1) * N2; p1 * N1 + p0 + 1 + (p2 + 1) * N2; (p1 + 1) * N1 + p0 + 1 + (p2 + 1) * N2; (p1 + 1) * N1 + p0 + (p2 + 1) * N2])
  else Throw.

(** * Reverse connectivity.  State: the buffer rn and the position of the pointer in it; the buffer rni and the position of the pointer. *)
Definition revst : Type := list (option Z) * Z * (list (option Z) * Z).
(** rn[0] = x0; rn[1] = x1; ...; rni[1] = rni[0] + n; rni++; rn += n.  (The order of these statements differs from place to place; the
    two buffers are distinct.) *)
Definition node (xs : list Z) (n : Z) (s : revst) : res revst :=
  let '(rn, p, (rni, q)) := s in
  let* (rn, _) := foldM (fun '(rn, k) x => let* rn := wrc rn (p + k) x in Ok (rn, k + 1)) xs (rn, 0) in
  let* v := rdc rni q in
  let* rni := wrc rni (q + 1) (v + n) in
  Ok (rn, p + n, (rni, q + 1)).
Definition finishRev (s : revst) : res (list Z * list Z) :=
  let '(rn, _, (rni, _)) := s in
  let* rn := initialised rn in let* rni := initialised rni in Ok (rn, rni).

(** Lines 603-637.  The two output arrays are not allocated on entry (as the wrappers do). *)
Definition Reverse1 (nbNodes : Z) : res (list Z * list Z) :=
  let* rni := alloc Z (nbNodes + 1) 1 in
  if nbNodes =? 0 then
    let* rni := wrc rni 0 0 in let* rni := initialised rni in Ok ([], rni)
  else if nbNodes =? 1 then
    let* rn := alloc Z 1 1 in
    let* rn := wrc rn 0 0 in
    let* rni := wrc rni 0 0 in
    let* rni := wrc rni 1 1 in
    let* rn := initialised rn in let* rni := initialised rni in Ok (rn, rni)
  else
  let* rn := alloc Z (2 * (nbNodes - 1)) 1 in
  let* rni := wrc rni 0 0 in
  let* s := node [0] 1 (rn, 0, (rni, 0)) in
  let* s := forZ 1 (nbNodes - 1) (fun i s => node [i - 1; i] 2 s) s in
  let* s := node [nbNodes - 2] 1 s in
  finishRev s.
(** Lines 640-708.  setIJ on an array that is not allocated writes out of any buffer. *)
Definition Reverse2 (nbNodesX nbNodesY : Z) : res (list Z * list Z) :=
  let nbNodes := nbNodesX * nbNodesY in
  if (nbNodesX =? 0) || (nbNodesY =? 0) then
    let* rni := wrc (malloc Z 0) 0 0 in let* rni := initialised rni in Ok ([], rni)
  else if (nbNodesX =? 1) || (nbNodesY =? 1) then Reverse1 (Z.max nbNodesX nbNodesY)
  else
  let* rni := alloc Z (nbNodes + 1) 1 in
  let nbCellsX := nbNodesX - 1 in let nbCellsY := nbNodesY - 1 in
  let* rn := alloc Z (4 * (nbNodesX - 2) * (nbNodesY - 2) + 2 * 2 * (nbNodesX - 2) + 2 * 2 * (nbNodesY - 2) + 4) 1 in
  let* rni := wrc rni 0 0 in
  let* s := (
    let* s := node [0] 1 (rn, 0, (rni, 0)) in
    let* s := forZ 1 (nbNodesX - 1) (fun i s => node [i - 1; i] 2 s) s in
    node [nbCellsX - 1] 1 s) in
  let* s := forZ 1 (nbNodesY - 1) (fun j s =>
    let off := nbCellsX * (j - 1) in let off2 := nbCellsX * j in
    let* s := node [off; off2] 2 s in
    let* s := forZ 1 (nbNodesX - 1) (fun i s => node [i - 1 + off; i + off; i - 1 + off2; i + off2] 4 s) s in
    node [off + nbCellsX - 1; off2 + nbCellsX - 1] 2 s) s in
  let off3 := nbCellsX * (nbCellsY - 1) in
  let* s := (
    let* s := node [off3] 1 s in
    let* s := forZ 1 (nbNodesX - 1) (fun i s => node [i - 1 + off3; i + off3] 2 s) s in
    node [nbCellsX * nbCellsY - 1] 1 s) in
  finishRev s.
(** if (b) *rn++ = x; *)
Definition pushIf (b : bool) (x : Z) (l : list Z) : list Z := if b then l ++ [x] else l.
(** Lines 711-806.  In the loop, the values pushed in the second branch are first collected in a list. *)
Definition Reverse3 (nbNodesX nbNodesY nbNodesZ : Z) : res (list Z * list Z) :=
  let nbNodes := nbNodesX * nbNodesY * nbNodesZ in
  if (nbNodesX =? 0) || (nbNodesY =? 0) || (nbNodesZ =? 0) then
    let* rni := wrc (malloc Z 0) 0 0 in let* rni := initialised rni in Ok ([], rni)
  else if (nbNodesX =? 1) || (nbNodesY =? 1) || (nbNodesZ =? 1) then
    let* (ngs2, _) := foldM (fun '(ngs2, pass) n =>
      if pass : bool then Ok (ngs2 ++ [n], pass)
      else let pass := n =? 1 in Ok (if pass then ngs2 else ngs2 ++ [n], pass)) [nbNodesX; nbNodesY; nbNodesZ] ([], false) in
    let* a := rd ngs2 0 in let* b := rd ngs2 1 in Reverse2 a b
  else
  let* rni := alloc Z (nbNodes + 1) 1 in
  let nbCellsX := nbNodesX - 1 in let nbCellsY := nbNodesY - 1 in let nbCellsZ := nbNodesZ - 1 in
  let* rn := alloc Z (8 * (nbNodesX - 2) * (nbNodesY - 2) * (nbNodesZ - 2)
    + 4 * (2 * (nbNodesX - 2) * (nbNodesY - 2) + 2 * (nbNodesX - 2) * (nbNodesZ - 2) + 2 * (nbNodesY - 2) * (nbNodesZ - 2))
    + 2 * 4 * (nbNodesX - 2) + 2 * 4 * (nbNodesY - 2) + 2 * 4 * (nbNodesZ - 2) + 8) 1 in
  let* rni := wrc rni 0 0 in
  let* s := forZ 0 nbNodesZ (fun k s =>
    let factZ := negb (k =? 0) && negb (k =? nbNodesZ - 1) in
    let offZ0 := (k - 1) * nbCellsX * nbCellsY in let offZ1 := k * nbCellsX * nbCellsY in
    forZ 0 nbNodesY (fun j s =>
      let factYZ := factZ && (negb (j =? 0) && negb (j =? nbNodesY - 1)) in
      let off00 := (j - 1) * nbCellsX + offZ0 in let off01 := j * nbCellsX + offZ0 in
      let off10 := (j - 1) * nbCellsX + offZ1 in let off11 := j * nbCellsX + offZ1 in
      forZ 0 nbNodesX (fun i s =>
        let fact := factYZ && (negb (i =? 0) && negb (i =? nbNodesX - 1)) in
        if fact then
          node [off00 + i - 1; off00 + i; off01 + i - 1; off01 + i; off10 + i - 1; off10 + i; off11 + i - 1; off11 + i] 8 s
        else
          let l := [] in
          let l := pushIf ((1 <=? k) && (1 <=? j) && (1 <=? i)) (off00 + i - 1) l in
          let l := pushIf ((1 <=? k) && (1 <=? j) && (i <? nbCellsX)) (off00 + i) l in
          let l := pushIf ((1 <=? k) && (j <? nbCellsY) && (1 <=? i)) (off01 + i - 1) l in
          let l := pushIf ((1 <=? k) && (j <? nbCellsY) && (i <? nbCellsX)) (off01 + i) l in
          let l := pushIf ((k <? nbCellsZ) && (1 <=? j) && (1 <=? i)) (off10 + i - 1) l in
          let l := pushIf ((k <? nbCellsZ) && (1 <=? j) && (i <? nbCellsX)) (off10 + i) l in
          let l := pushIf ((k <? nbCellsZ) && (j <? nbCellsY) && (1 <=? i)) (off11 + i - 1) l in
          let l := pushIf ((k <? nbCellsZ) && (j <? nbCellsY) && (i <? nbCellsX)) (off11 + i) l in
          node l (zlen l) s) s) s) (rn, 0, (rni, 0)) in
  finishRev s.
(** Lines 582-600. *)
Definition getReverseNodalConnectivity (ngs : list Z) : res (list Z * list Z) :=
  match ngs with
  | [x] => Reverse1 x
  | [x; y] => Reverse2 x y
  | [x; y; z] => Reverse3 x y z
  | _ => Throw
  end.

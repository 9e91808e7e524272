(** The order of the cells of a line: src/MEDCoupling/MEDCouplingUMesh.cxx 9767-9866. *)
From Verif Require Import CellModel Base DataArray StdModel IndexModel SkyModel UmModel DsModel.

(** 9829-9857, the inner loop: [dir] is the direction (true: backward), [active] activeSeg, [prev] prevPointId, [piece] linePiece, [edges] the
    set of the segments not used so far in ascending order. *)
Fixpoint walk (fuel : nat) (d dI rD rDI dsi : list Z) (dir : bool) (active prev : Z) (piece edges : list Z) : res (list Z * list Z) :=
  match fuel with
  | O => Fuel
  | S fuel =>
    if zlen edges =? 0 then Ok (piece, edges) else
    let '(piece, edges) := if dir && (prev =? -20) then (piece, edges)
      else (if dir then active :: piece else piece ++ [active], filter (fun e => e <> active) edges) in
    let* o := rd dI active in
    let* ptId1 := rd d o in
    let* ptId2 := rd d (o + 1) in
    let ptId := if dir then (if ptId1 =? prev then ptId2 else ptId1) else (if ptId2 =? prev then ptId1 else ptId2) in
    let* nb := rd dsi ptId in
    if nb =? 1 then Ok (piece, edges) else
    let* k := rd rDI ptId in
    let* seg1 := rd rD k in
    let* seg2 := rd rD (k + 1) in
    let active := if seg1 =? active then seg2 else seg1 in
    if bool_decide (active ∈ piece) then Ok (piece, edges) else walk fuel d dI rD rDI dsi dir active ptId piece edges
  end.
(** 9821-9864, the outer loop; [result] is the part of the array filled so far, [nc] its size. *)
Fixpoint pieces (fuel : nat) (d dI rD rDI dsi : list Z) (nc startSeg : Z) (result edges : list Z) : res (list Z) :=
  match fuel with
  | O => Fuel
  | S fuel =>
    let* (piece, edges) := walk (Z.to_nat nc + 1) d dI rD rDI dsi false startSeg (-20) [] edges in
    let* (piece, edges) := walk (Z.to_nat nc + 1) d dI rD rDI dsi true startSeg (-20) piece edges in
    ub_if (nc <? zlen result + zlen piece) >>>
    let result := result ++ piece in
    match edges with
    | [] => Ok result
    | e :: _ => pieces fuel d dI rD rDI dsi nc e result edges
    end
  end.
(** orderConsecutiveCells1D, 9778-9866; findIdsNotInRange(0, 3) is written as a test of the values.  The array of the result is the list of
    the values written, the cells of the array after them being uninitialised. *)
Definition orderConsecutiveCells1D (m : umesh) : res (list Z) :=
  checkFullyDefined m (fun _ _ _ =>
  throw_if negb (um_dim m =? 1) >>>
  let* (_, d, dI, rD, rDI) := buildDescendingConnectivity m in
  let* sh := deltaShiftIndex (vec rDI) in
  let* dsi := initialised sh in
  throw_if existsb (fun v => (v <? 0) || (3 <=? v)) dsi >>>
  let* nc := getNumberOfCells m in
  pieces (Z.to_nat nc + 1) d dI rD rDI dsi nc 0 [] (seqZ 0 nc)).

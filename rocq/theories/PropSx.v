(** C105: cells cut, cleaned or converted. *)
From Coq Require Import QArith.
From Verif Require Import Base DataArray CellTable CellModel UmModel UmSpec UcProofs6 DgModel DgSpec DgExamples SxModel SxSpec SxProofs2 SxProofs3 SxProofs4 SxExamples.
Local Open Scope Z_scope.

(** Quadrangles are cut along the asked diagonal, hexahedra into five or six tetrahedra that fill them; the other cells stay, and the result gives for each new cell the rank of the old one. *)
Theorem C105_simplexize m policy cells : policy ∈ [0; 1; 5; 6] -> um_dim m = (if policy <=? 1 then 2 else 3) -> stores m cells -> typed m cells ->
  (forall c, c ∈ cells -> (c.1 = NORM_QUAD4 -> zlen c.2 = 4) /\ (c.1 = NORM_HEXA8 -> zlen c.2 = 8)) ->
  exists m' css, simplexize m policy = Ok (m', sources css) /\ Forall2 (cut_into policy) cells css /\ stores m' (concat css) /\ typed m' (concat css) /\ um_dim m' = um_dim m /\ um_coords m' = um_coords m.
Proof. exact (simplexize_ok m policy cells). Qed.
Print Assumptions C105_simplexize.
Example C105_simplexize_plate : (forall c, c ∈ plate -> (c.1 = NORM_QUAD4 -> zlen c.2 = 4) /\ (c.1 = NORM_HEXA8 -> zlen c.2 = 8)) /\ (stores (mk 2 8 plate) plate /\ typed (mk 2 8 plate) plate) /\
  simplexize (mk 2 8 plate) 0 = Ok (mk 2 8 [(NORM_TRI3, [0; 1; 2]); (NORM_TRI3, [1; 4; 5]); (NORM_TRI3, [1; 5; 2]); (NORM_POLYGON, [2; 5; 7; 6; 3])], [0; 1; 1; 2]) /\
  simplexize (mk 2 8 plate) 1 = Ok (mk 2 8 [(NORM_TRI3, [0; 1; 2]); (NORM_TRI3, [1; 4; 2]); (NORM_TRI3, [4; 5; 2]); (NORM_POLYGON, [2; 5; 7; 6; 3])], [0; 1; 1; 2]).
Proof. split; [exact plate_sizes|]. split; [destruct (mk_ok 2 8 plate ltac:(lia)) as (H1 & H2 & _); exact (conj H1 H2)|]. split; vm_compute; reflexivity. Qed.
Example C105_simplexize_solids : (forall c, c ∈ solids -> (c.1 = NORM_QUAD4 -> zlen c.2 = 4) /\ (c.1 = NORM_HEXA8 -> zlen c.2 = 8)) /\
  (exists m', simplexize (mk 3 9 solids) 5 = Ok (m', [0; 0; 0; 0; 0; 1; 2])) /\ (exists m', simplexize (mk 3 9 solids) 6 = Ok (m', [0; 0; 0; 0; 0; 0; 1; 2])).
Proof. split; [exact solids_sizes|]. split; eexists; vm_compute; reflexivity. Qed.
(** The policy must be one of the four, and the dimension of the mesh its own. *)
Theorem C105_simplexize_bad m policy cells : stores m cells -> policy ∉ [0; 1; 5; 6] \/ um_dim m <> (if policy <=? 1 then 2 else 3) -> simplexize m policy = Throw.
Proof. exact (simplexize_bad m policy cells). Qed.
Print Assumptions C105_simplexize_bad.
Example C105_simplexize_bad_ex : 7 ∉ [0; 1; 5; 6] /\ um_dim (mk 2 8 plate) <> 3.
Proof. split; [rewrite !not_elem_of_cons; repeat split; try discriminate; apply not_elem_of_nil|discriminate]. Qed.

(** The segments whose two ends are the same node leave the mesh, and no other one; the result tells whether there was one. *)
Theorem C105_segments m cells : um_dim m = 1 -> stores m cells -> typed m cells -> (forall c, c ∈ cells -> (c.1 = NORM_SEG2 \/ c.1 = NORM_SEG3) /\ 2 <= zlen c.2) ->
  exists m', removeDegenerated1DCells m = Ok (m', List.existsb (fun c => negb (has_length c)) cells) /\ stores m' (List.filter has_length cells) /\ typed m' (List.filter has_length cells) /\ um_dim m' = um_dim m /\ um_coords m' = um_coords m.
Proof. exact (remove_ok m cells). Qed.
Print Assumptions C105_segments.
Example C105_segments_line : (forall c, c ∈ line -> (c.1 = NORM_SEG2 \/ c.1 = NORM_SEG3) /\ 2 <= zlen c.2) /\ (stores (mk 1 5 line) line /\ typed (mk 1 5 line) line) /\
  removeDegenerated1DCells (mk 1 5 line) = Ok (mk 1 5 [(NORM_SEG2, [0; 1]); (NORM_SEG3, [1; 3; 4])], true).
Proof. split; [exact line_ok|]. split; [destruct (mk_ok 1 5 line ltac:(lia)) as (H1 & H2 & _); exact (conj H1 H2)|]. vm_compute. reflexivity. Qed.
(** A cell that is not a segment is refused. *)
Theorem C105_segments_bad m cells : um_dim m = 1 -> stores m cells -> (exists c rest, cells = c :: rest /\ c.1 <> NORM_SEG2 /\ c.1 <> NORM_SEG3) -> removeDegenerated1DCells m = Throw.
Proof. exact (remove_other m cells). Qed.
Print Assumptions C105_segments_bad.
Example C105_segments_bad_ex : stores (mk 1 4 [(NORM_SEG4, [0; 1; 2; 3])]) [(NORM_SEG4, [0; 1; 2; 3])] /\ NORM_SEG4 <> NORM_SEG2 /\ NORM_SEG4 <> NORM_SEG3.
Proof. split; [exact (proj1 (mk_ok 1 4 [(NORM_SEG4, [0; 1; 2; 3])] ltac:(lia)))|]. split; discriminate. Qed.

(** Each quadratic cell is replaced by the linear cell with its corners; the linear ones stay. *)
Theorem C105_linear m cells : um_coords m <> None -> stores m cells -> typed m cells -> (forall c, c ∈ cells -> sized c) ->
  exists m', convertQuadraticCellsToLinear m = Ok m' /\ stores m' (linear_cell <$> cells) /\ typed m' (linear_cell <$> cells) /\ um_dim m' = um_dim m /\ um_coords m' = um_coords m.
Proof. exact (linear_ok m cells). Qed.
Print Assumptions C105_linear.
Example C105_linear_arcs : (forall c, c ∈ arcs -> sized c) /\ (stores (mk 2 9 arcs) arcs /\ typed (mk 2 9 arcs) arcs) /\
  convertQuadraticCellsToLinear (mk 2 9 arcs) = Ok (mk 2 9 [(NORM_TRI3, [0; 1; 2]); (NORM_QUAD4, [0; 1; 2; 3]); (NORM_POLYGON, [4; 5; 6]); (NORM_TRI3, [6; 7; 8])]).
Proof. split; [exact arcs_ok|]. split; [destruct (mk_ok 2 9 arcs ltac:(lia)) as (H1 & H2 & _); exact (conj H1 H2)|]. vm_compute. reflexivity. Qed.

(** The cells of the given ranks become polygons with the same nodes or polyhedra with the same faces; the others do not change. *)
Theorem C105_poly m ids cells : um_dim m = 2 \/ um_dim m = 3 -> um_coords m <> None -> stores m cells -> typed m cells -> (forall i, i ∈ ids -> 0 <= i < zlen cells) ->
  (forall i c, i ∈ ids -> cells @ i = Some c -> poly_able (um_dim m) c) ->
  exists m' cells', convertToPolyTypes m ids = Ok m' /\ made_poly ids cells cells' /\ stores m' cells' /\ typed m' cells' /\ um_dim m' = um_dim m /\ um_coords m' = um_coords m.
Proof. exact (poly_ok m ids cells). Qed.
Print Assumptions C105_poly.
Example C105_poly_plate : (forall i c, i ∈ [2; 1; 1] -> plate @ i = Some c -> poly_able 2 c) /\
  convertToPolyTypes (mk 2 8 plate) [2; 1; 1] = Ok (mk 2 8 [(NORM_TRI3, [0; 1; 2]); (NORM_POLYGON, [1; 4; 5; 2]); (NORM_POLYGON, [2; 5; 7; 6; 3])]) /\
  (forall i c, i ∈ [1; 0] -> blocks @ i = Some c -> poly_able 3 c) /\
  convertToPolyTypes (mk 3 6 blocks) [1; 0] = Ok (mk 3 6 [(NORM_POLYHED, [0; 1; 2; -1; 0; 3; 1; -1; 1; 3; 2; -1; 2; 3; 0]); (NORM_POLYHED, [0; 1; 2; -1; 0; 2; 1]); (NORM_TETRA4, [2; 3; 4; 5])]).
Proof. split; [exact plate_able|]. split; [vm_compute; reflexivity|]. split; [exact blocks_able|]. vm_compute. reflexivity. Qed.
(** A rank out of the mesh, or a mesh of another dimension, is refused. *)
Theorem C105_poly_bad m ids id rest cells : um_dim m = 2 \/ um_dim m = 3 -> um_coords m <> None -> stores m cells -> (forall i, i ∈ ids -> 0 <= i < zlen cells) ->
  (forall i c, i ∈ ids -> cells @ i = Some c -> poly_able (um_dim m) c) -> ~ 0 <= id < zlen cells -> convertToPolyTypes m (ids ++ id :: rest) = Throw.
Proof. exact (poly_bad_id m ids id rest cells). Qed.
Print Assumptions C105_poly_bad.
Theorem C105_poly_dimension m ids : um_dim m <> 2 -> um_dim m <> 3 -> convertToPolyTypes m ids = Throw.
Proof. exact (poly_bad_dim m ids). Qed.
Print Assumptions C105_poly_dimension.
Example C105_poly_bad_ex : ~ 0 <= 3 < zlen plate /\ convertToPolyTypes (mk 2 8 plate) [0; 3] = Throw /\ convertToPolyTypes (mk 2 8 plate) [0; -1] = Throw /\ um_dim (mk 1 5 line) <> 2 /\ um_dim (mk 1 5 line) <> 3.
Proof. split; [vm_compute; intros [_ H]; discriminate H|]. split; [vm_compute; reflexivity|]. split; [vm_compute; reflexivity|]. split; discriminate. Qed.
(** A polyhedron with one face steps out of the buffer of the conversion. *)
Theorem C105_one_face_refuted m cells ids i f : um_dim m = 3 -> um_coords m <> None -> stores m cells -> (forall j, j ∈ ids -> 0 <= j < zlen cells) -> i ∈ ids ->
  (forall j c, j ∈ ids -> j < i -> cells @ j = Some c -> poly_able 3 c) -> cells @ i = Some (NORM_POLYHED, f) -> -1 ∉ f -> convertToPolyTypes m ids = UB.
Proof. exact (one_face m cells ids i f). Qed.
Print Assumptions C105_one_face_refuted.
Example C105_one_face_ex : convertToPolyTypes (mk 3 6 (blocks ++ [(NORM_POLYHED, [0; 1; 2])])) [0; 3] = UB.
Proof. vm_compute. reflexivity. Qed.

(** convertAllToPoly does so for all the cells, and unPolyze then gives the mesh back. *)
Theorem C105_poly_all m cells : um_dim m = 2 \/ um_dim m = 3 -> um_coords m <> None -> stores m cells -> typed m cells -> (forall c, c ∈ cells -> poly_able (um_dim m) c) ->
  exists m' cells', convertAllToPoly m = Ok m' /\ Forall2 as_poly cells cells' /\ stores m' cells' /\ typed m' cells' /\ um_dim m' = um_dim m /\ um_coords m' = um_coords m.
Proof. exact (poly_all m cells). Qed.
Print Assumptions C105_poly_all.
Theorem C105_round_trip m cells : um_dim m = 2 \/ um_dim m = 3 -> um_coords m <> None -> stores m cells -> typed m cells -> Forall (usual (um_dim m)) cells ->
  exists m1 m2 b, convertAllToPoly m = Ok m1 /\ unPolyze m1 = Ok (m2, b) /\ stores m2 cells /\ typed m2 cells /\ um_dim m2 = um_dim m /\ um_coords m2 = um_coords m.
Proof. exact (round_ok m cells). Qed.
Print Assumptions C105_round_trip.
Example C105_round_solids : Forall (usual 3) solids /\ (stores (mk 3 9 solids) solids /\ typed (mk 3 9 solids) solids) /\
  (let* m1 := convertAllToPoly (mk 3 9 solids) in unPolyze m1) = Ok (mk 3 9 solids, true).
Proof. split; [exact solids_ok|]. split; [destruct (mk_ok 3 9 solids ltac:(lia)) as (H1 & H2 & _); exact (conj H1 H2)|]. vm_compute. reflexivity. Qed.

(** C106: meshes turned over, and tests of quadratic cells. *)
From Coq Require Import QArith.
From Verif Require Import Base DataArray CellTable CellModel CellSpec UmModel UmSpec UcProofs6 SxExamples OiModel OiSpec OiProofs2 OiExamples.
Local Open Scope Z_scope.

(** Each cell gets the other orientation and keeps its type, its nodes and its rank; the coordinates stay; doing it twice gives the mesh back. *)
Theorem C106_invert m cells : 0 <= um_dim m -> stores m cells -> typed m cells -> (forall c, c ∈ cells -> can_invert (um_dim m) c) ->
  exists m' cells', invertOrientationOfAllCells m = Ok m' /\ Forall2 turned_over cells cells' /\ stores m' cells' /\ typed m' cells' /\ um_dim m' = um_dim m /\ um_coords m' = um_coords m /\ invertOrientationOfAllCells m' = Ok m.
Proof. exact (invert_ok m cells). Qed.
Print Assumptions C106_invert.
Example C106_invert_plate : (stores (mk 2 9 tiles) tiles /\ typed (mk 2 9 tiles) tiles) /\ (forall c, c ∈ tiles -> can_invert 2 c) /\
  invertOrientationOfAllCells (mk 2 9 tiles) = Ok (mk 2 9 [(NORM_TRI3, [0; 2; 1]); (NORM_QUAD8, [0; 3; 2; 1; 7; 6; 5; 4]); (NORM_POLYGON, [2; 3; 6; 7; 5]); (NORM_TRI3, [6; 8; 7])]).
Proof. split; [destruct (mk_ok 2 9 tiles ltac:(lia)) as (H1 & H2 & _); exact (conj H1 H2)|]. split; [exact tiles_inv|]. vm_compute. reflexivity. Qed.
Example C106_invert_solids : (stores (mk 3 9 solids) solids /\ typed (mk 3 9 solids) solids) /\ (forall c, c ∈ solids -> can_invert 3 c) /\
  (exists m', invertOrientationOfAllCells (mk 3 9 solids) = Ok m' /\ m' <> mk 3 9 solids).
Proof. split; [destruct (mk_ok 3 9 solids ltac:(lia)) as (H1 & H2 & _); exact (conj H1 H2)|]. split; [exact solids_inv|]. eexists. split; [vm_compute; reflexivity|vm_compute; discriminate]. Qed.

(** The same for the method that takes lines and surfaces, segments with middles included. *)
Theorem C106_change m cells : um_dim m = 1 \/ um_dim m = 2 -> stores m cells -> typed m cells -> (forall c, c ∈ cells -> can_change (um_dim m) c) ->
  exists m' cells', changeOrientationOfCells m = Ok m' /\ Forall2 turned_over cells cells' /\ stores m' cells' /\ typed m' cells' /\ um_dim m' = um_dim m /\ um_coords m' = um_coords m /\ changeOrientationOfCells m' = Ok m.
Proof. exact (change_ok m cells). Qed.
Print Assumptions C106_change.
Example C106_change_line : (stores (mk 1 5 line) line /\ typed (mk 1 5 line) line) /\ (forall c, c ∈ line -> can_change 1 c) /\
  changeOrientationOfCells (mk 1 5 line) = Ok (mk 1 5 [(NORM_SEG2, [1; 0]); (NORM_SEG2, [1; 1]); (NORM_SEG3, [3; 1; 4]); (NORM_SEG3, [2; 2; 4])]).
Proof. split; [destruct (mk_ok 1 5 line ltac:(lia)) as (H1 & H2 & _); exact (conj H1 H2)|]. split; [exact line_change|]. vm_compute. reflexivity. Qed.
Example C106_change_plate : (forall c, c ∈ tiles -> can_change 2 c) /\
  changeOrientationOfCells (mk 2 9 tiles) = Ok (mk 2 9 [(NORM_TRI3, [0; 2; 1]); (NORM_QUAD8, [0; 3; 2; 1; 7; 6; 5; 4]); (NORM_POLYGON, [2; 3; 6; 7; 5]); (NORM_TRI3, [6; 8; 7])]).
Proof. split; [exact tiles_change|]. vm_compute. reflexivity. Qed.
(** It refuses the other dimensions. *)
Theorem C106_change_bad m : um_dim m <> 1 -> um_dim m <> 2 -> changeOrientationOfCells m = Throw.
Proof. exact (change_bad m). Qed.
Print Assumptions C106_change_bad.
Example C106_change_bad_ex : um_dim (mk 3 9 solids) <> 1 /\ um_dim (mk 3 9 solids) <> 2.
Proof. split; discriminate. Qed.

(** isFullyQuadratic tells whether all the cells are quadratic, isPresenceOfQuadratic whether one is. *)
Theorem C106_quadratic m cells : um_coords m <> None -> stores m cells -> (forall c, c ∈ cells -> exists k, GetCellModel c.1 = Ok k) ->
  exists b1 b2, isFullyQuadratic m = Ok b1 /\ (b1 = true <-> forall c, c ∈ cells -> quadratic_cell c) /\ isPresenceOfQuadratic m = Ok b2 /\ (b2 = true <-> exists c, c ∈ cells /\ quadratic_cell c).
Proof. exact (quadratic_ok m cells). Qed.
Print Assumptions C106_quadratic.
Example C106_quadratic_tiles : um_coords (mk 2 9 tiles) <> None /\ stores (mk 2 9 tiles) tiles /\ (forall c, c ∈ tiles -> exists k, GetCellModel c.1 = Ok k) /\
  isFullyQuadratic (mk 2 9 tiles) = Ok false /\ isPresenceOfQuadratic (mk 2 9 tiles) = Ok true.
Proof. split; [discriminate|]. split; [exact (proj1 (mk_ok 2 9 tiles ltac:(lia)))|]. split; [exact tiles_known|]. split; vm_compute; reflexivity. Qed.

(** A mesh of quadratic segments is not turned over: an end and the middle are exchanged. *)
Theorem C106_invert_seg3_refuted : exists a b, invertOrientationOfAllCells (mk 1 3 [(NORM_SEG3, a)]) = Ok (mk 1 3 [(NORM_SEG3, b)]) /\ zlen a = 3 /\ ~ turned_over (NORM_SEG3, a) (NORM_SEG3, b).
Proof. exact seg3_spoilt. Qed.
Print Assumptions C106_invert_seg3_refuted.
(** changeOrientationOfCells writes out of the cell when it has a node at its centre. *)
Theorem C106_change_centre_refuted : exists a, zlen a = 7 /\ changeOrientationOfCells (mk 2 7 [(NORM_TRI7, a)]) = UB.
Proof. exact tri7_spoilt. Qed.
Print Assumptions C106_change_centre_refuted.

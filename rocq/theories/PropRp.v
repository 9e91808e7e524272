(** C108: cells of a mesh replaced by those of another mesh. *)
From Coq Require Import QArith.
From Verif Require Import Base DataArray CellTable CellModel UmModel UmSpec UcProofs6 SlicesSpec SxExamples RpModel RpSpec RpProofs RpProofs2 RpExamples.
Local Open Scope Z_scope.

(** The cell ids[k] becomes the cell k of the other mesh, of any type and size; the other cells, the coordinates and the dimension are kept, and the set of types is right. *)
Theorem C108_replace m other cells news ids : um_dim other = um_dim m -> -1 <= um_dim m -> stores m cells -> stores other news -> zlen ids = zlen news -> NoDup ids -> (forall i, i ∈ ids -> 0 <= i < zlen cells) ->
  exists m' cells', setPartOfMySelf true m ids other = Ok m' /\ cells_replaced cells ids news cells' /\ stores m' cells' /\ typed m' cells' /\ um_dim m' = um_dim m /\ um_coords m' = um_coords m.
Proof. exact (replace_ok m other cells news ids). Qed.
Print Assumptions C108_replace.
Example C108_replace_other_sizes : (stores (mk 2 8 plate) plate /\ stores (mk 2 8 twoQuads) twoQuads) /\ (NoDup [2; 0] /\ forall i, i ∈ [2; 0] -> 0 <= i < zlen plate) /\
  setPartOfMySelf true (mk 2 8 plate) [2; 0] (mk 2 8 twoQuads) = Ok (mk 2 8 [(NORM_QUAD4, [0; 1; 2; 3]); (NORM_QUAD4, [1; 4; 5; 2]); (NORM_QUAD4, [4; 5; 6; 7])]).
Proof. split; [exact (conj (proj1 (mk_ok 2 8 plate ltac:(lia))) (proj1 (mk_ok 2 8 twoQuads ltac:(lia))))|]. split; [exact plate_two|]. vm_compute. reflexivity. Qed.
Example C108_replace_same_size : setPartOfMySelf true (mk 2 8 plate) [1] (mk 2 8 [(NORM_POLYGON, [4; 5; 6; 7])]) = Ok (mk 2 8 [(NORM_TRI3, [0; 1; 2]); (NORM_POLYGON, [4; 5; 6; 7]); (NORM_POLYGON, [2; 5; 7; 6; 3])]).
Proof. vm_compute. reflexivity. Qed.
(** Other coordinates, another dimension, another number of cells and an id out of the mesh are refused. *)
Theorem C108_bad same m other cells news ids : -1 <= um_dim m -> -1 <= um_dim other -> stores m cells -> stores other news -> same = false \/ um_dim other <> um_dim m \/ zlen ids <> zlen news \/ (exists i, i ∈ ids /\ ~ 0 <= i < zlen cells) ->
  setPartOfMySelf same m ids other = Throw.
Proof. exact (replace_bad same m other cells news ids). Qed.
Print Assumptions C108_bad.
Example C108_bad_ex : setPartOfMySelf true (mk 2 8 plate) [0; 3] (mk 2 8 twoQuads) = Throw /\ ~ 0 <= 3 < zlen plate.
Proof. split; [vm_compute; reflexivity|]. change (zlen plate) with 3. lia. Qed.
(** The same with the ids of a range. *)
Theorem C108_slice m other cells news start stop step ids : um_dim other = um_dim m -> -1 <= um_dim m -> stores m cells -> stores other news -> valid_range start stop step -> is_range_list start stop step ids -> zlen ids = zlen news -> (forall i, i ∈ ids -> 0 <= i < zlen cells) ->
  exists m' cells', setPartOfMySelfSlice true m start stop step other = Ok m' /\ cells_replaced cells ids news cells' /\ stores m' cells' /\ typed m' cells' /\ um_dim m' = um_dim m /\ um_coords m' = um_coords m.
Proof. exact (slice_ok m other cells news start stop step ids). Qed.
Print Assumptions C108_slice.
Example C108_slice_back : (valid_range 2 (-1) (-2) /\ is_range_list 2 (-1) (-2) [2; 0]) /\ (forall i, i ∈ [2; 0] -> 0 <= i < zlen plate) /\
  setPartOfMySelfSlice true (mk 2 8 plate) 2 (-1) (-2) (mk 2 8 twoQuads) = Ok (mk 2 8 [(NORM_QUAD4, [0; 1; 2; 3]); (NORM_QUAD4, [1; 4; 5; 2]); (NORM_QUAD4, [4; 5; 6; 7])]).
Proof. split; [exact back_range|]. split; [exact (proj2 plate_two)|]. vm_compute. reflexivity. Qed.
(** An id of the range out of the mesh is refused. *)
Theorem C108_slice_bad m other cells news start stop step ids : um_dim other = um_dim m -> -1 <= um_dim m -> stores m cells -> stores other news -> valid_range start stop step -> is_range_list start stop step ids -> zlen ids = zlen news -> (exists i, i ∈ ids /\ ~ 0 <= i < zlen cells) ->
  setPartOfMySelfSlice true m start stop step other = Throw.
Proof. exact (slice_bad m other cells news start stop step ids). Qed.
Print Assumptions C108_slice_bad.
Example C108_slice_bad_ex : setPartOfMySelfSlice true (mk 2 8 plate) 2 4 1 (mk 2 8 twoQuads) = Throw.
Proof. vm_compute. reflexivity. Qed.
(** With an id given twice, the arrays of the mesh can hold values that were never written. *)
Theorem C108_twice_refuted : exists cells news ids, (stores (mk 2 8 cells) cells /\ stores (mk 2 8 news) news) /\ zlen ids = zlen news /\ (forall i, i ∈ ids -> 0 <= i < zlen cells) /\ setPartOfMySelf true (mk 2 8 cells) ids (mk 2 8 news) = UB.
Proof. exact twice_spoilt. Qed.
Print Assumptions C108_twice_refuted.

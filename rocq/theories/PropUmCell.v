(** C65: the cells of the nodes. C66: selection and numbering of cells. *)
From Coq Require Import QArith.
From Verif Require Import Base DataArray FillLib SlicesSpec IndexSpec UmModel UmSpec UmProofs8 UmProofs9 UmProofs10.
Local Open Scope Z_scope.

(** getReverseNodalConnectivity: for each node its cells in ascending order, one as many times as it has the node. *)
Theorem C65_reverse m cells nb : stores m cells -> has_nodes m nb -> (forall v, used cells v -> v < nb) ->
  exists r rI, getReverseNodalConnectivity m = Ok (r, rI) /\ skyline (cells_of_node 0 cells <$> seqZ 0 nb) r rI.
Proof. exact (rev_ok m cells nb). Qed.
Print Assumptions C65_reverse.

(** getCellIdsLyingOnNodes. *)
Theorem C65_lying_on m cells ids b : stores m cells ->
  exists l, fillCellIdsToKeepFromNodeIds m ids b = Ok l /\ ascending l /\ forall i, i ∈ l <-> exists c, cells @ i = Some c /\ lies_on b ids c.
Proof. exact (keep_ok m cells ids b). Qed.
Print Assumptions C65_lying_on.

(** computeNbOfNodesPerCell, computeEffectiveNbOfNodesPerCell. *)
Theorem C65_nb_nodes m cells : stores m cells -> computeNbOfNodesPerCell m = Ok (Some <$> ((fun c : cell => zlen (nodes_of c)) <$> cells)).
Proof. exact (nbNodes_ok m cells). Qed.
Print Assumptions C65_nb_nodes.
Theorem C65_nb_distinct_nodes m cells : stores m cells -> exists l, computeEffectiveNbOfNodesPerCell m = Ok (Some <$> l) /\ zlen l = zlen cells /\
  forall i (c : cell) k, cells @ i = Some c -> l @ i = Some k -> exists ns, NoDup ns /\ (forall v, v ∈ ns <-> v ∈ nodes_of c) /\ zlen ns = k.
Proof. exact (nbEff_ok m cells). Qed.
Print Assumptions C65_nb_distinct_nodes.

(** buildPartOfMySelf with the coordinates kept: the given cells, in the given order; it throws exactly when one does not exist. *)
Theorem C66_part m cells ids sel : stores m cells -> picked cells ids sel ->
  exists m', buildPartOfMySelfKeepCoords m ids = Ok m' /\ stores m' sel /\ typed m' sel /\ um_dim m' = um_dim m /\ um_coords m' = um_coords m.
Proof. exact (part_ok m cells ids sel). Qed.
Print Assumptions C66_part.
Theorem C66_part_throws m cells ids : stores m cells -> buildPartOfMySelfKeepCoords m ids = Throw <-> exists v, v ∈ ids /\ ~ 0 <= v < zlen cells.
Proof. exact (part_throw m cells ids). Qed.
Print Assumptions C66_part_throws.
Theorem C66_slice m cells b e s ids sel : stores m cells -> is_Some (um_coords m) -> valid_range b e s -> is_range_list b e s ids -> picked cells ids sel ->
  exists m', buildPartOfMySelfKeepCoordsSlice m b e s = Ok m' /\ stores m' sel /\ typed m' sel /\ um_dim m' = um_dim m /\ um_coords m' = um_coords m.
Proof. exact (slice_ok m cells b e s ids sel). Qed.
Print Assumptions C66_slice.
Theorem C66_slice_throws m cells b e s : stores m cells -> is_Some (um_coords m) -> (~ valid_range b e s \/ exists ids v, is_range_list b e s ids /\ v ∈ ids /\ ~ 0 <= v < zlen cells) -> buildPartOfMySelfKeepCoordsSlice m b e s = Throw.
Proof. exact (slice_throw m cells b e s). Qed.
Print Assumptions C66_slice_throws.

(** renumberCells by a permutation; with check, by any distinct values: the new order of the cells is that of their values. *)
Theorem C66_renumber m cells l0 : stores m cells -> zlen cells <= zlen l0 -> NoDup (take (Z.to_nat (zlen cells)) l0) -> (forall v, v ∈ take (Z.to_nat (zlen cells)) l0 -> 0 <= v < zlen cells) ->
  exists m' sel, renumberCells m l0 false = Ok m' /\ stores m' sel /\ typed m' sel /\ um_dim m' = um_dim m /\ um_coords m' = um_coords m /\ sel ≡ₚ cells /\ forall i t, 0 <= i < zlen cells -> l0 @ i = Some t -> sel @ t = cells @ i.
Proof. exact (renum_ok m cells l0). Qed.
Print Assumptions C66_renumber.
Theorem C66_renumber_check m cells l0 : stores m cells -> zlen cells = zlen l0 -> NoDup l0 ->
  exists m' sel, renumberCells m l0 true = Ok m' /\ stores m' sel /\ typed m' sel /\ um_dim m' = um_dim m /\ um_coords m' = um_coords m /\ sel ≡ₚ cells /\
    forall i j a b p q, l0 @ i = Some a -> l0 @ j = Some b -> a < b -> cells @ i = Some p -> cells @ j = Some q -> exists s t, s < t /\ sel @ s = Some p /\ sel @ t = Some q.
Proof. exact (renum_check_ok m cells l0). Qed.
Print Assumptions C66_renumber_check.
Theorem C66_renumber_throws m cells l0 : stores m cells -> zlen cells = zlen l0 -> ~ NoDup l0 -> renumberCells m l0 true = Throw.
Proof. exact (renum_check_throw m cells l0). Qed.
Print Assumptions C66_renumber_throws.

(** Three cells: two triangles and a quadrangle. *)
Definition three : umesh := UM 2 (Some (DA true 2 (replicate 12 0%Q))) (Some [3; 0; 1; 2; 4; 1; 3; 4; 2; 3; 2; 4; 5]) (Some [0; 4; 9; 13]) [3; 4].
Example C65_ex : stores three [(3, [0; 1; 2]); (4, [1; 3; 4; 2]); (3, [2; 4; 5])] /\ has_nodes three 6 /\
  getReverseNodalConnectivity three = Ok ([0; 0; 1; 0; 1; 2; 1; 1; 2; 2], [0; 1; 3; 6; 7; 9; 10]) /\
  fillCellIdsToKeepFromNodeIds three [2; 4; 5] true = Ok [2] /\ fillCellIdsToKeepFromNodeIds three [1] false = Ok [0; 1] /\ computeNbOfNodesPerCell three = Ok [Some 3; Some 4; Some 3].
Proof.
  split; [eexists _, _; split; [reflexivity|]; split; [reflexivity|]; split; [reflexivity|exact (psums_ok [4; 5; 4])]|].
  split; [eexists; split; [reflexivity|]; split; [reflexivity|]; split; [split; [vm_compute; congruence|]; exists 6; split; [vm_compute; congruence|reflexivity]|reflexivity]|].
  split; [reflexivity|]. split; [reflexivity|]. split; reflexivity.
Qed.
Example C66_ex : picked [(3, [0; 1; 2]); (4, [1; 3; 4; 2]); (3, [2; 4; 5])] [2; 0; 2] [(3, [2; 4; 5]); (3, [0; 1; 2]); (3, [2; 4; 5])] /\
  buildPartOfMySelfKeepCoords three [2; 0; 2] = Ok (UM 2 (um_coords three) (Some [3; 2; 4; 5; 3; 0; 1; 2; 3; 2; 4; 5]) (Some [0; 4; 8; 12]) [3]) /\
  buildPartOfMySelfKeepCoordsSlice three 2 (-1) (-2) = buildPartOfMySelfKeepCoords three [2; 0] /\ buildPartOfMySelfKeepCoords three [0; 3] = Throw /\
  renumberCells three [1; 2; 0] false = Ok (UM 2 (um_coords three) (Some [3; 2; 4; 5; 3; 0; 1; 2; 4; 1; 3; 4; 2]) (Some [0; 4; 8; 13]) [3; 4]) /\
  renumberCells three [15; 20; -7] true = renumberCells three [1; 2; 0] false.
Proof.
  split; [constructor; [reflexivity|]; constructor; [reflexivity|]; constructor; [reflexivity|constructor]|]. split; [reflexivity|]. split; [reflexivity|]. split; [reflexivity|]. split; reflexivity.
Qed.

From Verif Require Import Base SearchSpec IndexSpec StrModel StrSpec ConnModel ConnSpec ConnProofs ConnProofs2 ConnProofs3 ConnProofs4 ConnProofs5.

(** * C43 *)
(** The connectivity is made of one block per cell, in the order of the cell ids; the block holds exactly the corners of the cell. *)
Theorem C43_connectivity ngs : grid_ok ngs -> exists bs, Build1GTNodalConnectivity ngs = Ok (concat bs) /\ zlen bs = grid_nb (cell_axes ngs) /\
  forall cp, in_grid (cell_axes ngs) cp -> exists b, bs @ grid_id (cell_axes ngs) cp = Some b /\ zlen b = nb_corners ngs /\ NoDup b /\ forall n, n ∈ b <-> node_of ngs cp n.
Proof. exact (build_spec ngs). Qed.
Print Assumptions C43_connectivity.
Example C43_connectivity_ex : grid_ok [3; 1; 3] /\ Build1GTNodalConnectivity [3; 1; 3] = Ok [1; 0; 3; 4; 2; 1; 4; 5; 4; 3; 6; 7; 5; 4; 7; 8] /\ node_of [3; 1; 3] [1; 0; 0] 4.
Proof.
  split; [split; [done|repeat (constructor; [lia|]); constructor]|]. split; [done|]. exists [1; 0; 1]. split; [repeat (constructor; [lia|]); constructor|]. split; [done|repeat (constructor; [lia|]); constructor].
Qed.
Theorem C43_connectivity_throws ngs : ~ grid_ok ngs -> Build1GTNodalConnectivity ngs = Throw.
Proof. exact (build_throw ngs). Qed.
Print Assumptions C43_connectivity_throws.
Example C43_connectivity_throws_ex : ~ grid_ok [3; 0].
Proof. intros [_ H]. inversion H as [|??? H']. inversion H'. lia. Qed.
(** The order of the corners. *)
Theorem C43_connectivity_order ngs : no_flat ngs -> exists bs, Build1GTNodalConnectivity ngs = Ok (concat bs) /\ zlen bs = grid_nb (cells_st ngs) /\
  forall cp, in_grid (cells_st ngs) cp -> bs @ grid_id (cells_st ngs) cp = Some (corner_at ngs cp <$> conn_order (zlen ngs)).
Proof. exact (build_order ngs). Qed.
Print Assumptions C43_connectivity_order.
Example C43_connectivity_order_ex : no_flat [3; 2; 3] /\ in_grid (cells_st [3; 2; 3]) [1; 0; 1] /\ corner_at [3; 2; 3] [1; 0; 1] <$> conn_order 3 = [8; 7; 10; 11; 14; 13; 16; 17].
Proof. split; [split; [done|repeat (constructor; [lia|]); constructor]|]. split; [repeat (constructor; [lia|]); constructor|done]. Qed.
(** For every node, the ids of the cells around it, increasing; no hole and nothing else in the two arrays. *)
Theorem C43_reverse ngs : grid_ok ngs -> exists rn rni ps, getReverseNodalConnectivity ngs = Ok (rn, rni) /\ skyline ps rn rni /\ zlen ps = grid_nb ngs /\
  forall pos, in_grid ngs pos -> exists p, ps @ grid_id ngs pos = Some p /\ enumerates (cell_around ngs pos) p.
Proof. exact (reverse_spec ngs). Qed.
Print Assumptions C43_reverse.
Example C43_reverse_ex : grid_ok [3; 1; 2] /\ getReverseNodalConnectivity [3; 1; 2] = Ok ([0; 0; 1; 1; 0; 0; 1; 1], [0; 1; 3; 4; 5; 7; 8]) /\ cell_around [3; 1; 2] [1; 0; 0] 1.
Proof.
  split; [split; [done|repeat (constructor; [lia|]); constructor]|]. split; [done|]. exists [1; 0; 0]. split; [repeat (constructor; [cbn; lia|]); constructor|]. split; [done|repeat (constructor; [lia|]); constructor].
Qed.
Example C43_reverse_ex2 : getReverseNodalConnectivity [2; 3] = Ok ([0; 0; 0; 1; 0; 1; 1; 1], [0; 1; 2; 4; 6; 7; 8]).
Proof. done. Qed.
Theorem C43_transpose ngs conn rn rni : grid_ok ngs -> Build1GTNodalConnectivity ngs = Ok conn -> getReverseNodalConnectivity ngs = Ok (rn, rni) ->
  exists bs ps, conn = concat bs /\ Forall (fun b => zlen b = nb_corners ngs) bs /\ skyline ps rn rni /\ forall c n, (exists b, bs @ c = Some b /\ n ∈ b) <-> (exists p, ps @ n = Some p /\ c ∈ p).
Proof. exact (transpose ngs conn rn rni). Qed.
Print Assumptions C43_transpose.
Example C43_transpose_ex : exists conn r, grid_ok [3; 2; 2] /\ Build1GTNodalConnectivity [3; 2; 2] = Ok conn /\ getReverseNodalConnectivity [3; 2; 2] = Ok r.
Proof. eexists _, _. split; [split; [done|repeat (constructor; [lia|]); constructor]|]. split; vm_compute; done. Qed.
(** The nodes of one cell. *)
Theorem C43_nodeIds ngs cp conn : no_flat ngs -> in_grid (cells_st ngs) cp ->
  getNodeIdsOfCell ngs (grid_id (cells_st ngs) cp) conn = Ok (conn ++ (corner_at ngs cp <$> ids_order (zlen ngs))).
Proof. exact (node_ids ngs cp conn). Qed.
Print Assumptions C43_nodeIds.
Theorem C43_nodeIds_set ngs cp : no_flat ngs -> in_grid (cells_st ngs) cp -> exists b, (forall conn, getNodeIdsOfCell ngs (grid_id (cells_st ngs) cp) conn = Ok (conn ++ b)) /\ NoDup b /\ zlen b = nb_corners ngs /\ forall n, n ∈ b <-> node_of ngs cp n.
Proof. exact (node_ids_set ngs cp). Qed.
Print Assumptions C43_nodeIds_set.
Example C43_nodeIds_ex : no_flat [3; 3] /\ in_grid (cells_st [3; 3]) [1; 1] /\ getNodeIdsOfCell [3; 3] 3 [9] = Ok [9; 4; 5; 8; 7].
Proof. split; [split; [done|repeat (constructor; [lia|]); constructor]|]. split; [repeat (constructor; [lia|]); constructor|done]. Qed.

(** * What does not hold *)
(** A mesh without node: the second output array is written without having been allocated (not in dimension 1). *)
Theorem C43_reverse_empty_refuted : ~ (forall ngs, dim_ok ngs -> Forall (fun n => 0 <= n) ngs -> getReverseNodalConnectivity ngs <> UB).
Proof. intros H. apply (H [0; 2]); [done|repeat (constructor; [lia|]); constructor|]. done. Qed.
Print Assumptions C43_reverse_empty_refuted.
(** getNodeIdsOfCell divides by zero when the first axis is flat and the two others are not. *)
Theorem C43_nodeIds_flat_refuted : ~ (forall ngs cp, grid_ok ngs -> in_grid (cell_axes ngs) cp -> getNodeIdsOfCell ngs (grid_id (cell_axes ngs) cp) [] <> UB).
Proof. intros H. apply (H [1; 3; 4] [0; 0; 0]); [split; [done|repeat (constructor; [lia|]); constructor]|repeat (constructor; [cbn; lia|]); constructor|]. vm_compute. done. Qed.
Print Assumptions C43_nodeIds_flat_refuted.
(** The cell is not given in the same order by the two functions (the quadrangle turns the other way round). *)
Theorem C43_nodeIds_order_refuted : ~ (forall ngs conn, no_flat ngs -> Build1GTNodalConnectivity ngs = Ok conn -> getNodeIdsOfCell ngs 0 [] = Ok (take (Z.to_nat (nb_corners ngs)) conn)).
Proof. intros H. specialize (H [2; 2] _ ltac:(split; [done|repeat (constructor; [lia|]); constructor]) eq_refl). vm_compute in H. discriminate H. Qed.
Print Assumptions C43_nodeIds_order_refuted.
(** The cell id is not checked: the answer may hold ids that are not those of nodes. *)
Theorem C43_nodeIds_range_refuted : ~ (forall ngs c b, no_flat ngs -> getNodeIdsOfCell ngs c [] = Ok b -> Forall (fun n => 0 <= n < grid_nb ngs) b).
Proof.
  intros H. specialize (H [3; 3] 4 _ ltac:(split; [done|repeat (constructor; [lia|]); constructor]) eq_refl). rewrite Forall_forall in H. specialize (H 9). assert (9 ∈ [6; 7; 10; 9]) as Hin by (apply (bool_decide_unpack _); vm_compute; done). specialize (H Hin). vm_compute in H. destruct H as [_ H]. done.
Qed.
Print Assumptions C43_nodeIds_range_refuted.
(** A mesh with a single node has one cell in its connectivity and none according to getNumberOfCells. *)
Theorem C43_one_node_refuted : ~ (forall ngs conn nb, grid_ok ngs -> Build1GTNodalConnectivity ngs = Ok conn -> getNumberOfCells ngs = Ok nb -> zlen conn = nb * nb_corners ngs).
Proof. intros H. specialize (H [1; 1] [0] 0 ltac:(split; [done|repeat (constructor; [lia|]); constructor]) eq_refl eq_refl). discriminate H. Qed.
Print Assumptions C43_one_node_refuted.
